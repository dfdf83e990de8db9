(** PropEdit2.v -- histories of edits (C20, C22) and failed edits (C23).
    Vocabulary: EditSpec.v. *)
From Coq Require Import QArith ZifyBool String.
From Verif Require Import Base Disco DiscoProofs Records RecordProofs RecordSound Spec LineFacts
  Normal Tree TreeSpec TreeProofs TreeGrammar TreeMaps PropRecords PropRecords3 PropTree PropTree2 EditSpec PropEdit.
Open Scope Z_scope.
Open Scope list_scope.
Notation length := List.length.

(** ** C20 *)
(** lookups in terms of the maps *)
Definition look (m : tmat) (mf mt : Z) : option tsec :=
  match mfind mf (tm_files m) with Some f => mfind mt (tf_secs f) | None => None end.
Lemma shows_iff m v : shows m v <->
  tm_mat m = v_mat v /\ (forall mf, mat_hasMF m mf = v_has v mf) /\ (forall mf mt, look m mf mt = v_sec v mf mt).
Proof.
  unfold shows, look, mat_hasMFMT, mat_section, mat_file, file_has, file_section, at_, mhas. split.
  - intros (A & B & C & D). split; [exact A|]. split; [exact B|]. intros mf mt. specialize (D mf mt).
    destruct (mfind mf (tm_files m)) as [f|]; cbn [obind] in D.
    + destruct (mfind mt (tf_secs f)), (v_sec v mf mt); congruence.
    + destruct (v_sec v mf mt); congruence.
  - intros (A & B & C). split; [exact A|]. split; [exact B|]. split; intros mf mt; rewrite <- (C mf mt);
      destruct (mfind mf (tm_files m)) as [f|]; cbn [obind]; try reflexivity; destruct (mfind mt (tf_secs f)); reflexivity.
Qed.
(** the view of a material *)
Definition view_of (m : tmat) : view := mkview (tm_mat m) (mat_hasMF m) (look m).
Lemma shows_self m : shows m (view_of m).
Proof. apply shows_iff. auto. Qed.

Lemma look_ensure mf m : (forall mf' mt, look (ensure_file mf m) mf' mt = look m mf' mt)
  /\ (forall mf', mat_hasMF (ensure_file mf m) mf' = set1 (mat_hasMF m) mf true mf')
  /\ mfind mf (tm_files (ensure_file mf m)) <> None.
Proof.
  unfold ensure_file. destruct (mat_hasMF m mf) eqn:H.
  - split; [auto|]. split.
    + intros mf'. unfold set1. destruct (Z.eqb_spec mf' mf); [now subst|reflexivity].
    + unfold mat_hasMF, mhas in H. destruct (mfind mf (tm_files m)); [discriminate|discriminate H].
  - unfold mat_hasMF in *. cbn [tm_files]. split; [|split].
    + intros mf' mt. unfold look. cbn [tm_files]. destruct (Z.eq_dec mf' mf) as [->|N].
      * rewrite mfind_place by exact H. cbn. unfold mhas in H. now destruct (mfind mf (tm_files m)).
      * now rewrite mfind_place_other.
    + intros mf'. unfold mhas, set1. destruct (Z.eqb_spec mf' mf) as [->|N]; [now rewrite mfind_place|now rewrite mfind_place_other].
    + rewrite mfind_place by exact H. discriminate.
Qed.
(** an edit of the file mf *)
Lemma in_file_look mf e m f f' x : mfind mf (tm_files m) = Some f -> e f = (f', x) ->
  snd (in_file mf e m) = x /\ tm_mat (fst (in_file mf e m)) = tm_mat m
  /\ (forall k, mat_hasMF (fst (in_file mf e m)) k = mat_hasMF m k)
  /\ (forall k mt, look (fst (in_file mf e m)) k mt = if k =? mf then mfind mt (tf_secs f') else look m k mt).
Proof.
  intros Ef Ee. unfold in_file. rewrite Ef, Ee. cbn [fst snd]. split; [reflexivity|]. split; [reflexivity|]. split.
  - intros k. unfold mat_hasMF, mhas. cbn [tm_files]. rewrite mfind_upd. destruct (k =? mf); [|reflexivity]. now destruct (mfind k (tm_files m)).
  - intros k mt. unfold look. cbn [tm_files]. rewrite mfind_upd. destruct (Z.eqb_spec k mf) as [->|N]; [|reflexivity]. now rewrite Ef.
Qed.
Lemma mfind_put s l k : mfind k (memplace (ts_mt s) s (mrem (ts_mt s) l)) = if k =? ts_mt s then Some s else mfind k l.
Proof.
  destruct (Z.eqb_spec k (ts_mt s)) as [->|N].
  - rewrite mfind_place; [reflexivity|]. unfold mhas. rewrite mfind_rem, Z.eqb_refl. reflexivity.
  - rewrite mfind_place_other, mfind_rem by exact N. now replace (k =? ts_mt s) with false by lia.
Qed.
Lemma mfind_putf {A} k0 (f : A) l k : mfind k (memplace k0 f (mrem k0 l)) = if k =? k0 then Some f else mfind k l.
Proof.
  destruct (Z.eqb_spec k k0) as [->|N].
  - rewrite mfind_place; [reflexivity|]. unfold mhas. rewrite mfind_rem, Z.eqb_refl. reflexivity.
  - rewrite mfind_place_other, mfind_rem by exact N. now replace (k =? k0) with false by lia.
Qed.
Lemma has_find m mf : mat_hasMF m mf = match mfind mf (tm_files m) with Some _ => true | None => false end.
Proof. reflexivity. Qed.

Lemma mop_sim o m v : wfm m -> shows m v ->
  shows (fst (mop_run o m)) (fst (mop_spec o v)) /\ snd (mop_run o m) = snd (mop_spec o v).
Proof.
  intros W H. apply shows_iff in H. destruct H as (Hm & Hh & Hl).
  assert (G : forall mf f, mfind mf (tm_files m) = Some f -> tf_mf f = mf /\ tf_mat f = v_mat v).
  { intros mf f E. destruct (mfind_Forall _ _ _ _ (proj2 W) E) as (K1 & K2 & _). cbn in *. split; congruence. }
  (* edits of sections, through the material or through the file *)
  assert (SEC : forall (ins : bool) s m0 mf, wfm m0 -> tm_mat m0 = v_mat v ->
     (forall mf' mt, look m0 mf' mt = v_sec v mf' mt) -> mfind mf (tm_files m0) <> None ->
     let e := in_file mf (if ins then file_insert s else file_put s) m0 in
     let bad := negb (ts_mat s =? v_mat v) || negb (ts_mf s =? mf)
                || (ins && match v_sec v mf (ts_mt s) with Some _ => true | None => false end) in
     tm_mat (fst e) = v_mat v /\ snd e = (if bad then Some EStd else None)
     /\ (forall k, mat_hasMF (fst e) k = mat_hasMF m0 k)
     /\ (forall k mt, look (fst e) k mt = if bad then v_sec v k mt else set2 (v_sec v) mf (ts_mt s) (Some s) k mt)).
  { clear G Hl Hh Hm W m. intros ins s m0 mf W Hm Hl Hf e bad. destruct (mfind mf (tm_files m0)) as [f|] eqn:Ef; [|congruence].
    destruct (mfind_Forall _ _ _ _ (proj2 W) Ef) as (K1 & K2 & _). cbn [fst snd] in K1, K2.
    assert (Es : mfind (ts_mt s) (tf_secs f) = v_sec v mf (ts_mt s)) by (rewrite <- Hl; unfold look; now rewrite Ef).
    set (ef := if ins then file_insert s else file_put s) in *.
    assert (Ee : ef f = if bad then (f, Some EStd)
              else (mktfile (tf_mat f) (tf_mf f) (memplace (ts_mt s) s (mrem (ts_mt s) (tf_secs f))), None)).
    { unfold ef, bad. destruct ins; unfold file_insert, file_put, file_has, mhas; cbn [andb].
      - rewrite Es. destruct (v_sec v mf (ts_mt s)); [now rewrite orb_true_r|]. rewrite orb_false_r.
        replace (tf_mat f =? ts_mat s) with (ts_mat s =? v_mat v) by lia. replace (tf_mf f =? ts_mf s) with (ts_mf s =? mf) by lia. reflexivity.
      - rewrite orb_false_r.
        replace (tf_mat f =? ts_mat s) with (ts_mat s =? v_mat v) by lia. replace (tf_mf f =? ts_mf s) with (ts_mf s =? mf) by lia. reflexivity. }
    destruct bad eqn:Eb; destruct (in_file_look mf ef m0 f _ _ Ef Ee) as (A & B & C & D); unfold e.
    - split; [congruence|]. split; [exact A|]. split; [exact C|]. intros k mt. rewrite D. rewrite <- Hl. unfold look.
      destruct (Z.eqb_spec k mf) as [->|N]; [now rewrite Ef|reflexivity].
    - split; [congruence|]. split; [exact A|]. split; [exact C|]. intros k mt. rewrite D. cbn [tf_secs]. unfold set2. rewrite mfind_put, <- Hl. unfold look.
      destruct (Z.eqb_spec k mf) as [->|N]; [|reflexivity]. cbn [andb]. rewrite Ef. reflexivity. }
  assert (MSEC : forall (ins : bool) s, 
     let e := in_file (ts_mf s) (if ins then file_insert s else file_put s) (ensure_file (ts_mf s) m) in
     let bad := negb (ts_mat s =? v_mat v) || (ins && match v_sec v (ts_mf s) (ts_mt s) with Some _ => true | None => false end) in
     tm_mat (fst e) = v_mat v /\ snd e = (if bad then Some EStd else None)
     /\ (forall k, mat_hasMF (fst e) k = set1 (v_has v) (ts_mf s) true k)
     /\ (forall k mt, look (fst e) k mt = if bad then v_sec v k mt else set2 (v_sec v) (ts_mf s) (ts_mt s) (Some s) k mt)).
  { intros ins s e bad. destruct (wfm_ensure (ts_mf s) m W) as [W' Em]. destruct (look_ensure (ts_mf s) m) as (L1 & L2 & L3).
    destruct (SEC ins s (ensure_file (ts_mf s) m) (ts_mf s) W') as (A & B & C & D); auto; [congruence|intros; now rewrite L1, Hl|].
    rewrite Z.eqb_refl in B, D. cbn [negb] in B, D. rewrite orb_false_r in B, D.
    split; [exact A|]. split; [exact B|]. split; [|exact D]. intros k. unfold e. rewrite C, L2. unfold set1. destruct (k =? ts_mf s); auto. }
  assert (FSEC : forall (ins : bool) mf s,
     let e := in_file mf (if ins then file_insert s else file_put s) m in
     let bad := negb (ts_mat s =? v_mat v) || negb (ts_mf s =? mf) || (ins && match v_sec v mf (ts_mt s) with Some _ => true | None => false end) in
     v_has v mf = true ->
     tm_mat (fst e) = v_mat v /\ snd e = (if bad then Some EStd else None)
     /\ (forall k, mat_hasMF (fst e) k = v_has v k)
     /\ (forall k mt, look (fst e) k mt = if bad then v_sec v k mt else set2 (v_sec v) mf (ts_mt s) (Some s) k mt)).
  { intros ins mf s e bad Hv. destruct (SEC ins s m mf W) as (A & B & C & D); auto.
    - rewrite <- Hh, has_find in Hv. destruct (mfind mf (tm_files m)); [discriminate|discriminate Hv].
    - split; [exact A|]. split; [exact B|]. split; [|exact D]. intros k. unfold e. now rewrite C, Hh. }
  destruct o as [s|s|f|f|mf|mf mt|mf s|mf s|mf mt]; cbn [mop_run mop_spec].
  - (* InsertSection *)
    destruct (MSEC true s) as (A & B & C & D). unfold mat_insert_sec. cbn [andb] in *.
    destruct (negb (ts_mat s =? v_mat v)); cbn [orb] in *.
    + split; [apply shows_iff; cbn [fst v_mat v_has v_sec]; auto|exact B].
    + destruct (v_sec v (ts_mf s) (ts_mt s)) as [s0|] eqn:E0.
      * split; [|exact B]. apply shows_iff. cbn [fst v_mat v_has v_sec]. split; [exact A|]. split; [|exact D].
        intros k. rewrite C. unfold set1. destruct (Z.eqb_spec k (ts_mf s)) as [->|N]; [|reflexivity].
        symmetry. rewrite <- Hh, has_find. rewrite <- Hl in E0. unfold look in E0. now destruct (mfind (ts_mf s) (tm_files m)).
      * split; [|exact B]. apply shows_iff. cbn [fst v_mat v_has v_sec put_section]. auto.
  - destruct (MSEC false s) as (A & B & C & D). unfold mat_put_sec. cbn [andb] in *. rewrite orb_false_r in *.
    destruct (negb (ts_mat s =? v_mat v)).
    + split; [apply shows_iff; cbn [fst v_mat v_has v_sec]; auto|exact B].
    + split; [|exact B]. apply shows_iff. cbn [fst v_mat v_has v_sec put_section]. auto.
  - unfold mat_insert_file. rewrite Hh. destruct (v_has v (tf_mf f)) eqn:Ev; cbn [orb]; [split; [apply shows_iff; auto|reflexivity]|].
    unfold mat_put_file. replace (tm_mat m =? tf_mat f) with (tf_mat f =? v_mat v) by lia.
    destruct (negb (tf_mat f =? v_mat v)); [split; [apply shows_iff; auto|reflexivity]|]. split; [|reflexivity].
    apply shows_iff. cbn [fst v_mat v_has v_sec put_file tm_mat]. split; [exact Hm|]. split.
    + intros k. rewrite has_find. cbn [tm_files]. rewrite mfind_putf. unfold set1. rewrite <- Hh, has_find. destruct (k =? tf_mf f); reflexivity.
    + intros k mt. unfold look. cbn [tm_files]. rewrite mfind_putf. unfold set1, file_view, file_section, at_.
      destruct (k =? tf_mf f); [now destruct (mfind mt (tf_secs f))|]. apply Hl.
  - unfold mat_put_file. replace (tm_mat m =? tf_mat f) with (tf_mat f =? v_mat v) by lia.
    destruct (negb (tf_mat f =? v_mat v)); [split; [apply shows_iff; auto|reflexivity]|]. split; [|reflexivity].
    apply shows_iff. cbn [fst v_mat v_has v_sec put_file tm_mat]. split; [exact Hm|]. split.
    + intros k. rewrite has_find. cbn [tm_files]. rewrite mfind_putf. unfold set1. rewrite <- Hh, has_find. destruct (k =? tf_mf f); reflexivity.
    + intros k mt. unfold look. cbn [tm_files]. rewrite mfind_putf. unfold set1, file_view, file_section, at_.
      destruct (k =? tf_mf f); [now destruct (mfind mt (tf_secs f))|]. apply Hl.
  - split; [|reflexivity]. apply shows_iff. cbn [fst v_mat v_has v_sec]. split; [exact Hm|]. split.
    + intros k. rewrite has_find. cbn [tm_files mat_remove]. rewrite mfind_rem. unfold set1. rewrite <- Hh, has_find. destruct (k =? mf); reflexivity.
    + intros k mt. unfold look. cbn [tm_files mat_remove]. rewrite mfind_rem. unfold set1. destruct (k =? mf); [reflexivity|apply Hl].
  - split; [|reflexivity]. apply shows_iff. cbn [fst v_mat v_has v_sec]. split; [exact Hm|]. split.
    + intros k. rewrite has_find. cbn [tm_files mat_remove_sec]. rewrite mfind_upd. rewrite <- Hh, has_find. destruct (k =? mf); [|reflexivity]. now destruct (mfind k (tm_files m)).
    + intros k j. unfold look. cbn [tm_files mat_remove_sec]. rewrite mfind_upd. unfold set2. rewrite <- Hl. unfold look.
      destruct (Z.eqb_spec k mf) as [->|N]; [|reflexivity]. destruct (mfind mf (tm_files m)) as [f|]; cbn [option_map andb].
      * cbn [tf_secs file_remove]. rewrite mfind_rem. reflexivity.
      * now destruct (j =? mt).
  - destruct (v_has v mf) eqn:Ev; cbn [negb].
    + destruct (FSEC true mf s Ev) as (A & B & C & D). cbn [andb] in *. 
      destruct (negb (ts_mat s =? v_mat v) || negb (ts_mf s =? mf)) eqn:Eb; cbn [orb] in *.
      * split; [apply shows_iff; cbn [fst v_mat v_has v_sec]; auto|exact B].
      * assert (ts_mf s = mf) by lia.
        destruct (v_sec v mf (ts_mt s)) as [s0|] eqn:E0; (split; [|exact B]); apply shows_iff; cbn [fst v_mat v_has v_sec put_section]; auto.
        rewrite H. split; [exact A|]. split; [|exact D]. intros k. rewrite C. unfold set1. destruct (Z.eqb_spec k mf); [now subst|reflexivity].
    + assert (E : mfind mf (tm_files m) = None) by (rewrite <- Hh, has_find in Ev; now destruct (mfind mf (tm_files m))).
      unfold in_file. rewrite E. split; [apply shows_iff; auto|reflexivity].
  - destruct (v_has v mf) eqn:Ev; cbn [negb].
    + destruct (FSEC false mf s Ev) as (A & B & C & D). cbn [andb] in *. rewrite orb_false_r in *.
      destruct (negb (ts_mat s =? v_mat v) || negb (ts_mf s =? mf)) eqn:Eb; cbn [orb] in *.
      * split; [apply shows_iff; cbn [fst v_mat v_has v_sec]; auto|exact B].
      * assert (ts_mf s = mf) by lia.
        split; [|exact B]; apply shows_iff; cbn [fst v_mat v_has v_sec put_section]; auto.
        rewrite H. split; [exact A|]. split; [|exact D]. intros k. rewrite C. unfold set1. destruct (Z.eqb_spec k mf); [now subst|reflexivity].
    + assert (E : mfind mf (tm_files m) = None) by (rewrite <- Hh, has_find in Ev; now destruct (mfind mf (tm_files m))).
      unfold in_file. rewrite E. split; [apply shows_iff; auto|reflexivity].
  - destruct (v_has v mf) eqn:Ev.
    + assert (exists f, mfind mf (tm_files m) = Some f) as (f & E) by (rewrite <- Hh, has_find in Ev; destruct (mfind mf (tm_files m)); [eauto|discriminate]).
      destruct (in_file_look mf (fun f => (file_remove mt f, None)) m f _ _ E eq_refl) as (A & B & C & D).
      split; [|exact A]. apply shows_iff. cbn [fst v_mat v_has v_sec]. split; [congruence|]. split; [intros k; now rewrite C|].
      intros k j. rewrite D. cbn [tf_secs file_remove]. rewrite mfind_rem. unfold set2. rewrite <- Hl. unfold look.
      destruct (Z.eqb_spec k mf) as [->|N]; [|reflexivity]. now rewrite E.
    + assert (E : mfind mf (tm_files m) = None) by (rewrite <- Hh, has_find in Ev; now destruct (mfind mf (tm_files m))).
      unfold in_file. rewrite E. split; [apply shows_iff; auto|reflexivity].
Qed.

(** every history of edits shows what the finite map shows, and throws when it throws *)
Theorem C20_histories : forall m v l, made_mat m -> Forall op_ok l -> shows m v ->
  shows (fst (run mop_run l m)) (fst (run mop_spec l v))
  /\ snd (run mop_run l m) = snd (run mop_spec l v).
Proof.
  intros m v l W Ho. apply made_mat_wf in W. revert m v W.
  induction Ho as [|o l Ho _ IH]; intros m v W H; [auto|]. cbn [run].
  destruct (mop_sim o m v W H) as [S1 S2]. destruct (wfm_op o m Ho W) as [W' _].
  destruct (mop_run o m) as [m' x], (mop_spec o v) as [v' x']. cbn [fst snd] in *. subst.
  destruct (IH m' v' W' S1) as [S3 S4].
  destruct (run mop_run l m'), (run mop_spec l v'). cbn [fst snd] in *. split; [exact S3|congruence].
Qed.
(** in plain words: the section last put and not touched since is the one found *)
Definition touches (mf mt : Z) (o : mop) : bool :=
  match o with
  | InsertSection s | PutSection s | InFileInsert _ s | InFilePut _ s => (ts_mf s =? mf) && (ts_mt s =? mt)
  | InsertFile f | PutFile f => tf_mf f =? mf
  | RemoveFile k => k =? mf
  | RemoveSection k j | InFileRemove k j => (k =? mf) && (j =? mt)
  end.
Lemma spec_untouched o v mf mt : touches mf mt o = false -> v_sec (fst (mop_spec o v)) mf mt = v_sec v mf mt.
Proof.
  unfold touches. intros H.
  destruct o as [s|s|f|f|k|k j|k s|k s|k j]; cbn [mop_spec];
    repeat match goal with |- context [ if ?b then _ else _ ] => destruct b end;
    repeat match goal with |- context [ match ?x with Some _ => _ | None => _ end ] => destruct x end;
    cbn [fst v_sec put_section put_file]; try reflexivity; unfold set1, set2;
    match goal with |- context [ if ?b then _ else _ ] => replace b with false by lia; reflexivity end.
Qed.
Theorem C20_last_put_wins : forall m s l, made_mat m -> Forall op_ok l -> ts_mat s = tm_mat m ->
  forallb (fun o => negb (touches (ts_mf s) (ts_mt s) o)) l = true ->
  let m' := fst (run mop_run (PutSection s :: l) m) in
  mat_hasMFMT m' (ts_mf s) (ts_mt s) = true /\ mat_section m' (ts_mf s) (ts_mt s) = Val s.
Proof.
  intros m s l W Ho Em Hl m'.
  destruct (C20_histories m (view_of m) (PutSection s :: l) W (Forall_cons _ (I : op_ok (PutSection s)) Ho) (shows_self m)) as [(_ & _ & A & B) _].
  assert (E : v_sec (fst (run mop_spec (PutSection s :: l) (view_of m))) (ts_mf s) (ts_mt s) = Some s).
  { cbn [run mop_spec view_of v_mat]. rewrite Em, Z.eqb_refl. cbn [negb]. 
    assert (G : forall l v, forallb (fun o => negb (touches (ts_mf s) (ts_mt s) o)) l = true ->
        v_sec (fst (run mop_spec l v)) (ts_mf s) (ts_mt s) = v_sec v (ts_mf s) (ts_mt s)).
    { clear. induction l as [|o l IH]; intros v H; [reflexivity|]. cbn in H. apply andb_prop in H. destruct H as [H1 H2]. cbn [run].
      pose proof (spec_untouched o v (ts_mf s) (ts_mt s)) as U. destruct (mop_spec o v) as [v' x]. cbn [fst] in U.
      specialize (IH v' H2). destruct (run mop_spec l v'). cbn [fst] in *. rewrite IH. apply U. now destruct (touches _ _ o). }
    set (v1 := put_section s _). specialize (G l v1 Hl). destruct (run mop_spec l v1). cbn [fst] in *. rewrite G.
    unfold v1, put_section, set2. cbn [v_sec]. now rewrite !Z.eqb_refl. }
  unfold m'. rewrite A, B, E. auto.
Qed.
(** an insertion of something that is there fails, and nothing seen changes *)
Theorem C20_insert_existing : forall m v s, made_mat m -> shows m v ->
  mat_hasMFMT m (ts_mf s) (ts_mt s) = true ->
  snd (mat_insert_sec s m) = Some EStd /\ shows (fst (mat_insert_sec s m)) v.
Proof.
  intros m v s W H Hs. apply made_mat_wf in W. destruct (mop_sim (InsertSection s) m v W H) as [A B].
  cbn [mop_run mop_spec] in *. destruct H as (Hm & Hh & Hs' & _). rewrite Hs' in Hs.
  destruct (v_sec v (ts_mf s) (ts_mt s)) eqn:E; [|discriminate].
  destruct (negb (ts_mat s =? v_mat v)); [|auto]. split; [exact B|]. cbn [fst] in A.
  destruct A as (A1 & A2 & A3 & A4). split; [exact A1|]. split; [|auto]. intros k. rewrite A2. cbn [v_has]. unfold set1.
  destruct (Z.eqb_spec k (ts_mf s)) as [->|N]; [|reflexivity]. rewrite <- Hh. specialize (Hs' (ts_mf s) (ts_mt s)). rewrite E in Hs'.
  unfold mat_hasMFMT in Hs'. rewrite has_find. destruct (mfind (ts_mf s) (tm_files m)); [reflexivity|discriminate Hs'].
Qed.
Definition sec_of (mf mt : Z) : tsec := mktsec 125 mf mt (lines_text [L_head1; L_send]).
Example C20_example : made_mat (mktmat 125 []) /\ shows (mktmat 125 []) (mkview 125 (fun _ => false) (fun _ _ => None))
  /\ Forall op_ok [PutSection (sec_of 3 1); InsertSection (sec_of 3 2); InFilePut 3 (sec_of 3 1); RemoveSection 3 2; InsertSection (mktsec 126 4 2 [])]
  /\ snd (run mop_spec [PutSection (sec_of 3 1); InsertSection (sec_of 3 1); RemoveSection 3 2; InFileRemove 4 1; InsertSection (mktsec 126 4 2 [])]
        (mkview 125 (fun _ => false) (fun _ _ => None))) = [None; Some EStd; None; Some EOor; Some EStd].
Proof. repeat split; repeat constructor. Qed.

(** ** C22 *)
Lemma shows_range T : tape_shows T (fun mat => mmrange mat (tt_mats T)).
Proof.
  intros mat. unfold tape_material, tape_has, tape_number. split; [reflexivity|]. destruct (mmrange mat (tt_mats T)); cbn [length].
  - auto.
  - replace (Z.of_nat (S (length l)) =? 0) with false by lia. auto.
Qed.
Lemma shows_range_inv T f : tape_shows T f -> forall mat, mmrange mat (tt_mats T) = f mat.
Proof.
  intros H mat. destruct (H mat) as (A & B & C). unfold tape_material in C.
  destruct (f mat) as [|m l] eqn:E.
  - unfold tape_number in A. now destruct (mmrange mat (tt_mats T)).
  - rewrite B in C. now injection C.
Qed.
Theorem C22_histories : forall T f l, made_tape T -> tape_shows T f ->
  Forall (fun o => match o with TInsert m | TReplace m => made_mat m | TRemove _ => True end) l ->
  tape_shows (fold_left (fun T o => top_run o T) l T) (fold_left (fun f o => top_spec o f) l f).
Proof.
  intros T f l W H Ho. revert T f W H. induction Ho as [|o l Ho _ IH]; intros T f W H; [exact H|]. cbn [fold_left].
  apply IH.
  - destruct o; cbn [top_run]; [now apply mt_insert|now apply mt_replace|now apply mt_remove].
  - pose proof (shows_range_inv T f H) as R. apply made_tape_wf in W. destruct W as [W _].
    assert (E : forall mat, mmrange mat (tt_mats (top_run o T)) = top_spec o f mat).
    { intros mat. destruct o as [m|m|k]; cbn [top_run top_spec tape_insert tape_replace tape_remove tt_mats]; unfold set1.
      - rewrite mmrange_put by exact W. rewrite !R. destruct (Z.eqb_spec mat (tm_mat m)); [now subst|reflexivity].
      - rewrite mmrange_put by now apply weak_rem. rewrite mmrange_rem, R. now destruct (mat =? tm_mat m).
      - rewrite mmrange_rem, R. reflexivity. }
    intros mat. rewrite <- E. apply shows_range.
Qed.
Theorem C22_every_tape_shows : forall T, exists f, tape_shows T f.
Proof. intros T. eexists. apply shows_range. Qed.
Example C22_example :
  made_tape (mkttape None []) /\ tape_shows (mkttape None []) (fun _ => [])
  /\ made_mat (mktmat 125 [])
  /\ fold_left (fun f o => top_spec o f) [TInsert (mktmat 125 []); TInsert (mktmat 125 []); TInsert (mktmat 126 []); TReplace (mktmat 126 [])] (fun _ => []) 125
     = [mktmat 125 []; mktmat 125 []].
Proof. repeat split; constructor. Qed.

(** ** C23 *)
(** a failing edit of a file or of a tape-level container changes nothing at all *)
Theorem C23_file_edits : forall f s,
  (snd (file_insert s f) <> None -> fst (file_insert s f) = f)
  /\ (snd (file_put s f) <> None -> fst (file_put s f) = f).
Proof.
  intros f s. unfold file_insert, file_put. split.
  - destruct (file_has f (ts_mt s)); [reflexivity|]. destruct (_ || _); [reflexivity|]. intros K. now elim K.
  - destruct (_ || _); [reflexivity|]. intros K. now elim K.
Qed.
Theorem C23_insert_file : forall m f,
  (snd (mat_insert_file f m) <> None -> fst (mat_insert_file f m) = m)
  /\ (snd (mat_put_file f m) <> None -> fst (mat_put_file f m) = m).
Proof.
  intros m f. unfold mat_insert_file, mat_put_file. split.
  - destruct (mat_hasMF m (tf_mf f)); [reflexivity|]. destruct (negb _); [reflexivity|]. intros K. now elim K.
  - destruct (negb _); [reflexivity|]. intros K. now elim K.
Qed.
Lemma mupd_same {A} k (l : list (Z * A)) f : mfind k l = Some f -> mupd k (fun _ => f) l = l.
Proof.
  induction l as [|[a v] l IH]; [reflexivity|]. cbn. destruct (k =? a) eqn:E; [|intros H; now rewrite IH].
  intros H. injection H as ->. reflexivity.
Qed.
Lemma in_file_failed mf e m : (forall f, snd (e f) <> None -> fst (e f) = f) -> snd (in_file mf e m) <> None -> fst (in_file mf e m) = m.
Proof.
  intros He. unfold in_file. destruct (mfind mf (tm_files m)) as [f|] eqn:E; [|reflexivity]. specialize (He f).
  destruct (e f) as [f' x]. cbn [fst snd] in *. intros K. rewrite (He K), (mupd_same _ _ _ E). now destruct m.
Qed.
Lemma oapp_nil x : Val [] +++ x = x.
Proof. now destruct x. Qed.
Lemma place_empty_content mf mat l : mhas mf l = false ->
  oconcat (fun p : Z * tfile => file_content (snd p)) (memplace mf (mktfile mat mf []) l)
  = oconcat (fun p => file_content (snd p)) l.
Proof.
  intros H. assert (E : file_content (mktfile mat mf []) = Val []) by reflexivity.
  unfold mhas in H. induction l as [|[a v] l IH]; [reflexivity|]. cbn [memplace]. cbn [mfind] in H.
  assert (U : forall x l, oconcat (fun p : Z * tfile => file_content (snd p)) (x :: l)
                = (file_content (snd x) +++ oconcat (fun p => file_content (snd p)) l)) by reflexivity.
  destruct (mf <? a).
  - rewrite (U (mf, mktfile mat mf [])). cbn [snd]. rewrite E. apply oapp_nil.
  - destruct (mf =? a) eqn:K; [reflexivity|]. rewrite !U, IH by exact H. reflexivity.
Qed.
(** a failing edit of the sections of a material leaves the content and every section lookup unchanged,
    and leaves the material exactly unchanged if it already has the file *)
Theorem C23_section_edits : forall m o,
  match o with InsertSection _ | PutSection _ | InFileInsert _ _ | InFilePut _ _ => True | _ => False end ->
  made_mat m -> snd (mop_run o m) <> None ->
  mat_content (fst (mop_run o m)) = mat_content m
  /\ (forall mf mt, mat_hasMFMT (fst (mop_run o m)) mf mt = mat_hasMFMT m mf mt
                    /\ mat_section (fst (mop_run o m)) mf mt = mat_section m mf mt)
  /\ (match o with
      | InsertSection s | PutSection s => mat_hasMF m (ts_mf s) = true -> fst (mop_run o m) = m
      | _ => fst (mop_run o m) = m
      end).
Proof.
  intros m o Ho W. apply made_mat_wf in W.
  assert (G : forall (ins : bool) mf s, snd (in_file mf (if ins then file_insert s else file_put s) m) <> None ->
     fst (in_file mf (if ins then file_insert s else file_put s) m) = m).
  { intros ins mf s. apply in_file_failed. destruct ins; intros f; apply C23_file_edits. }
  assert (S0 : forall (ins : bool) s,
     let e := in_file (ts_mf s) (if ins then file_insert s else file_put s) (ensure_file (ts_mf s) m) in
     snd e <> None -> fst e = ensure_file (ts_mf s) m).
  { intros ins s e. apply in_file_failed. destruct ins; intros f; apply C23_file_edits. }
  assert (C : forall mf, mat_content (ensure_file mf m) = mat_content m).
  { intros mf. unfold ensure_file, mat_content. destruct (mat_hasMF m mf) eqn:E; [reflexivity|]. cbn [tm_files].
    now rewrite place_empty_content by exact E. }
  assert (L : forall k mf mt, mat_hasMFMT (ensure_file k m) mf mt = mat_hasMFMT m mf mt
                    /\ mat_section (ensure_file k m) mf mt = mat_section m mf mt).
  { intros k mf mt. destruct (look_ensure k m) as (L & _). specialize (L mf mt). unfold look in L.
    unfold mat_hasMFMT, mat_section, mat_file, file_has, file_section, at_, mhas.
    destruct (mfind mf (tm_files (ensure_file k m))), (mfind mf (tm_files m)); cbn [obind]; try rewrite L; auto; rewrite <- L; auto. }
  assert (N : forall k, mat_hasMF m k = true -> ensure_file k m = m) by (intros k Hk; unfold ensure_file; now rewrite Hk).
  destruct o as [s|s|f|f|mf|mf mt|mf s|mf s|mf mt]; try elim Ho; cbn [mop_run]; intros K.
  - unfold mat_insert_sec in *. rewrite (S0 true s K). split; [apply C|]. split; [apply L|]. apply N.
  - unfold mat_put_sec in *. rewrite (S0 false s K). split; [apply C|]. split; [apply L|]. apply N.
  - rewrite (G true mf s K). auto.
  - rewrite (G false mf s K). auto.
Qed.
(** but a material that does not have the file gets an empty one *)
Theorem C23_empty_file_refuted : forall mat mf mt c, mat <> 125 ->
  let m := mktmat 125 [] in
  let s := mktsec mat mf mt c in
  snd (mat_insert_sec s m) = Some EStd /\ mat_hasMF m mf = false
  /\ file_numbers (fst (mat_insert_sec s m)) = [mf].
Proof.
  intros mat mf mt c H m s. unfold mat_insert_sec, ensure_file, mat_hasMF, mhas, m, s. cbn [tm_files mfind ts_mf tm_mat].
  cbn [memplace]. unfold in_file. cbn [tm_files mfind]. rewrite Z.eqb_refl. unfold file_insert, file_put, file_has, mhas. cbn [tf_secs mfind tf_mat tf_mf ts_mat ts_mf].
  replace (125 =? mat) with false by lia. cbn [negb orb]. cbn [fst snd]. split; [reflexivity|]. split; [reflexivity|].
  unfold file_numbers. cbn [tm_files mupd]. rewrite Z.eqb_refl. reflexivity.
Qed.
