(** PropLocal.v -- C77: what an edit leaves alone stays where it was in the content, character for character. *)
From Coq Require Import ZifyBool List.
From Verif Require Import Base Disco Records Tree TreeSpec TreeGrammar TreeMaps Spec EditSpec PropTree2 PropEdit PropEdit2 PropOrder.
Open Scope Z_scope. Open Scope list_scope.

(** ** concatenating a sorted list *)
Section Pieces.
  Context {A : Type} (G : A -> text).
  Definition piece (o : option A) : text := match o with Some v => G v | None => [] end.
  Definition nonnil (t : text) : bool := match t with [] => false | _ => true end.
  Definition named (l : list (Z * A)) : list (Z * text) := filter (fun p => nonnil (snd p)) (map (fun p => (fst p, G (snd p))) l).
  Lemma named_text l : flat_map (fun p => G (snd p)) l = flat_map snd (named l).
  Proof. unfold named. induction l as [|[k v] l IH]; [reflexivity|]. cbn [flat_map map filter fst snd]. rewrite IH. destruct (G v) eqn:E; cbn [nonnil flat_map snd]; reflexivity. Qed.
  Lemma named_keys l k : In k (map fst (named l)) -> In k (map fst l).
  Proof. unfold named. intros I. apply in_map_iff in I. destruct I as (p & <- & I). apply filter_In in I. destruct I as (I & _). apply in_map_iff in I. destruct I as (q & <- & I). cbn [fst]. now apply in_map. Qed.
  Lemma named_strict l : ascending Z.lt (map fst l) -> ascending Z.lt (map fst (named l)).
  Proof.
    induction l as [|[k v] l IH]; [exact (fun H => H)|]. intros H. cbn [map fst] in H. apply strict_cons in H. destruct H as (F & H). unfold named. cbn [map filter fst snd]. fold (named l).
    destruct (nonnil (G v)); [|exact (IH H)]. cbn [map fst]. apply strict_cons. split; [|exact (IH H)]. rewrite Forall_forall in *. intros j I. apply F. now apply named_keys.
  Qed.
  Lemma named_find l k : ascending Z.lt (map fst l) -> mfind k (named l) = if nonnil (piece (mfind k l)) then Some (piece (mfind k l)) else None.
  Proof.
    induction l as [|[j v] l IH]; [reflexivity|]. intros H. cbn [map fst] in H. apply strict_cons in H. destruct H as (F & H). unfold named. cbn [map filter fst snd mfind]. fold (named l).
    destruct (Z.eqb_spec k j) as [E|N].
    - subst j. cbn [piece]. destruct (nonnil (G v)) eqn:Q; [cbn [mfind]; now rewrite Z.eqb_refl|]. apply mfind_None. intros I. apply named_keys in I. rewrite Forall_forall in F. specialize (F k I). lia.
    - destruct (nonnil (G v)); [cbn [mfind]; destruct (Z.eqb_spec k j); [contradiction|]|]; exact (IH H).
  Qed.
  (** lists of which each entry gives the same text *)
  Lemma texts_ext l l' : ascending Z.lt (map fst l) -> ascending Z.lt (map fst l') -> (forall k, piece (mfind k l) = piece (mfind k l')) ->
    flat_map (fun p => G (snd p)) l = flat_map (fun p => G (snd p)) l'.
  Proof. intros S S' H. rewrite !named_text. f_equal. apply strict_ext; try now apply named_strict. intros k. rewrite !named_find by assumption. now rewrite H. Qed.
  Definition before (k : Z) (l : list (Z * A)) : list (Z * A) := filter (fun p => fst p <? k) l.
  Definition after (k : Z) (l : list (Z * A)) : list (Z * A) := filter (fun p => k <? fst p) l.
  Lemma cut_at k l : ascending Z.lt (map fst l) ->
    flat_map (fun p => G (snd p)) l = flat_map (fun p => G (snd p)) (before k l) ++ piece (mfind k l) ++ flat_map (fun p => G (snd p)) (after k l).
  Proof.
    induction l as [|[j v] l IH]; [reflexivity|]. intros H. cbn [map fst] in H. apply strict_cons in H. destruct H as (F & H). unfold before, after. cbn [filter fst mfind flat_map snd]. fold (before k l) (after k l).
    rewrite (IH H). destruct (Z.eqb_spec k j) as [E|N].
    - subst j. rewrite !Z.ltb_irrefl. cbn [piece].
      assert (B : before k l = []). { unfold before. clear - F. induction l as [|[a w] l IH]; [reflexivity|]. cbn [map fst] in F. cbn [filter fst]. replace (a <? k) with false by (apply Forall_inv in F; lia). apply IH. now apply Forall_inv_tail in F. }
      assert (M : mfind k l = None). { apply mfind_None. intros I. rewrite Forall_forall in F. specialize (F k I). lia. }
      rewrite B, M. reflexivity.
    - destruct (Z.ltb_spec j k); destruct (Z.ltb_spec k j); try lia; cbn [flat_map snd]; [now rewrite app_assoc|].
      assert (B : before k l = []). { unfold before. clear - F H1. induction l as [|[a w] l IH]; [reflexivity|]. cbn [map fst] in F. cbn [filter fst]. replace (a <? k) with false by (apply Forall_inv in F; lia). apply IH. now apply Forall_inv_tail in F. }
      assert (M : mfind k l = None). { apply mfind_None. intros I. rewrite Forall_forall in F. specialize (F k I). lia. }
      rewrite B, M. reflexivity.
  Qed.
  Lemma filter_find (P : Z -> bool) (l : list (Z * A)) k : mfind k (filter (fun p => P (fst p)) l) = if P k then mfind k l else None.
  Proof.
    induction l as [|[j v] l IH]; cbn [filter mfind fst]; [now destruct (P k)|]. destruct (P j) eqn:Q; cbn [mfind].
    - destruct (Z.eqb_spec k j) as [->|]; [now rewrite Q|exact IH].
    - rewrite IH. destruct (Z.eqb_spec k j) as [->|]; [now rewrite Q|reflexivity].
  Qed.
  Lemma filter_strict (P : Z -> bool) (l : list (Z * A)) : ascending Z.lt (map fst l) -> ascending Z.lt (map fst (filter (fun p => P (fst p)) l)).
  Proof.
    induction l as [|[j v] l IH]; [exact (fun H => H)|]. intros H. cbn [map fst] in H. apply strict_cons in H. destruct H as (F & H). cbn [filter fst]. destruct (P j); [|exact (IH H)].
    cbn [map fst]. apply strict_cons. split; [|exact (IH H)]. rewrite Forall_forall in *. intros i I. apply F. apply in_map_iff in I. destruct I as (q & <- & I). apply filter_In in I. now apply in_map.
  Qed.
  Lemma flat_nil l k : flat_map (fun p => G (snd p)) l = [] -> piece (mfind k l) = [].
  Proof.
    induction l as [|[j v] l IH]; [reflexivity|]. cbn [flat_map snd mfind]. intros H. apply app_eq_nil in H. destruct H as (H1 & H2). destruct (k =? j); [exact H1|exact (IH H2)].
  Qed.
  (** lists that agree but for one entry: what is around it is the same *)
  Lemma around k l l' : ascending Z.lt (map fst l) -> ascending Z.lt (map fst l') -> (forall j, j <> k -> piece (mfind j l) = piece (mfind j l')) ->
    flat_map (fun p => G (snd p)) (before k l) = flat_map (fun p => G (snd p)) (before k l')
    /\ flat_map (fun p => G (snd p)) (after k l) = flat_map (fun p => G (snd p)) (after k l').
  Proof.
    intros S S' H. split; apply texts_ext; try (apply (filter_strict (fun a => a <? k)); assumption); try (apply (filter_strict (fun a => k <? a)); assumption); intros j; unfold before, after.
    - rewrite !(filter_find (fun a => a <? k)). destruct (Z.ltb_spec j k); [apply H; lia|reflexivity].
    - rewrite !(filter_find (fun a => k <? a)). destruct (Z.ltb_spec k j); [apply H; lia|reflexivity].
  Qed.
End Pieces.

(** ** files, materials *)
Definition ftxt (f : tfile) : text := closed (flat_map (fun p => ts_text (snd p)) (tf_secs f)) (tf_mat f).
Lemma file_content_ftxt f : 0 < tf_mat f < 10000 -> file_content f = Val (ftxt f).
Proof.
  intros H. unfold file_content, ftxt, close, closed. cbn [obind]. destruct (flat_map _ _); [reflexivity|]. unfold pr_FEND, FEND. replace (tf_mat f <? 1) with false by lia.
  cbn [obind]. now rewrite pr_end by (unfold in_cols; cbn; lia).
Qed.

Lemma mat_content_ftxt m : wfm m -> 0 < tm_mat m < 10000 -> mat_content m = Val (closed (flat_map (fun p => ftxt (snd p)) (tm_files m)) 0).
Proof.
  intros [H1 H2] Hm. unfold mat_content. rewrite (oconcat_val _ (fun p => ftxt (snd p))).
  - unfold close, closed. cbn [obind]. destruct (flat_map _ _); [reflexivity|]. change (pr_sdiv MEND) with (pr_sdiv (mksdiv zero_cont 0 0 0)). now rewrite pr_end by (unfold in_cols; cbn; lia).
  - eapply Forall_impl; [|exact H2]. intros [k f] (K1 & K2 & K3). apply file_content_ftxt. cbn in *. lia.
Qed.
Definition text_in (o : out tsec) : text := match o with Val s => ts_text s | _ => [] end.
Lemma section_piece m mf mt : text_in (mat_section m mf mt) = match mfind mf (tm_files m) with Some f => piece ts_text (mfind mt (tf_secs f)) | None => [] end.
Proof. unfold mat_section, mat_file, file_section, at_. destruct (mfind mf (tm_files m)) as [f|]; [|reflexivity]. cbn [obind]. now destruct (mfind mt (tf_secs f)). Qed.
(** files of which the sections give the same texts are printed alike, whether they exist without sections or not at all *)
Lemma same_files m m' mf : wfm m -> wfm m' -> tm_mat m' = tm_mat m -> (forall b, text_in (mat_section m' mf b) = text_in (mat_section m mf b)) ->
  piece ftxt (mfind mf (tm_files m)) = piece ftxt (mfind mf (tm_files m')).
Proof.
  intros W W' E H.
  assert (N : forall x f, wfm x -> mfind mf (tm_files x) = Some f -> ascending Z.lt (map fst (tf_secs f)) /\ tf_mat f = tm_mat x).
  { intros x f (_ & F) K. apply mfind_In in K. rewrite Forall_forall in F. destruct (F _ K) as (_ & A & (B & _)). split; [exact B|exact A]. }
  assert (K : forall b, match mfind mf (tm_files m') with Some f => piece ts_text (mfind b (tf_secs f)) | None => [] end = match mfind mf (tm_files m) with Some f => piece ts_text (mfind b (tf_secs f)) | None => [] end)
    by (intros b; now rewrite <- !section_piece).
  destruct (mfind mf (tm_files m)) as [f|] eqn:Ef, (mfind mf (tm_files m')) as [g|] eqn:Eg; cbn [piece]; [| | |reflexivity].
  - destruct (N _ _ W Ef) as (A & B). destruct (N _ _ W' Eg) as (C & D). unfold ftxt. rewrite (texts_ext ts_text (tf_secs f) (tf_secs g) A C) by (intros k; symmetry; apply K). congruence.
  - destruct (N _ _ W Ef) as (A & _). unfold ftxt. rewrite (texts_ext ts_text (tf_secs f) [] A) by (exact Logic.I || (intros k; symmetry; apply K)). reflexivity.
  - destruct (N _ _ W' Eg) as (A & _). unfold ftxt. rewrite (texts_ext ts_text (tf_secs g) [] A) by (exact Logic.I || apply K). reflexivity.
Qed.
(** materials that differ in one section at most: the content around it is the same *)
Lemma mat_hole : forall m mf mt, wfm m -> 0 < tm_mat m < 10000 -> exists A p q B,
  (p ++ q = [] -> forall b, b <> mt -> text_in (mat_section m mf b) = [])
  /\ forall m', wfm m' -> tm_mat m' = tm_mat m ->
  (forall a b, (a, b) <> (mf, mt) -> mat_section m' a b = mat_section m a b) ->
  mat_content m' = Val (closed (A ++ closed (p ++ text_in (mat_section m' mf mt) ++ q) (tm_mat m) ++ B) 0).
Proof.
  intros m mf mt W Hm.
  set (secs := fun x : tmat => match mfind mf (tm_files x) with Some f => tf_secs f | None => [] end).
  assert (Ss : forall x, wfm x -> ascending Z.lt (map fst (secs x))).
  { intros x (_ & F). unfold secs. destruct (mfind mf (tm_files x)) as [f|] eqn:K; [|exact Logic.I]. apply mfind_In in K. rewrite Forall_forall in F. apply (F _ K). }
  assert (Sp : forall x b, text_in (mat_section x mf b) = piece ts_text (mfind b (secs x))) by (intros x b; rewrite section_piece; unfold secs; destruct (mfind mf (tm_files x)); reflexivity).
  exists (flat_map (fun p => ftxt (snd p)) (before mf (tm_files m))), (flat_map (fun p => ts_text (snd p)) (before mt (secs m))),
    (flat_map (fun p => ts_text (snd p)) (after mt (secs m))), (flat_map (fun p => ftxt (snd p)) (after mf (tm_files m))).
  split.
  { intros Q b Nb. apply app_eq_nil in Q. destruct Q as (Q1 & Q2). apply (flat_nil ts_text _ b) in Q1, Q2. rewrite Sp. unfold before, after in *.
    rewrite (filter_find (fun a => a <? mt)) in Q1. rewrite (filter_find (fun a => mt <? a)) in Q2. destruct (Z.ltb_spec b mt); [exact Q1|]. now replace (mt <? b) with true in Q2 by lia. }
  intros m' W' E H. rewrite mat_content_ftxt by (auto; lia). do 2 f_equal. rewrite (cut_at ftxt mf) by apply W'.
  destruct (around ftxt mf (tm_files m') (tm_files m) (proj1 W') (proj1 W)) as (-> & ->).
  { intros j Hj. apply same_files; auto. intros b. rewrite H by congruence. reflexivity. }
  do 2 f_equal. destruct (around ts_text mt (secs m') (secs m) (Ss _ W') (Ss _ W)) as (<- & <-).
  { intros j Hj. rewrite <- !Sp. now rewrite H by congruence. }
  rewrite Sp, <- (cut_at ts_text mt) by now apply Ss. unfold secs. destruct (mfind mf (tm_files m')) as [f|] eqn:K; [|reflexivity]. cbn [piece]. unfold ftxt. f_equal.
  apply mfind_In in K. destruct W' as (_ & F). rewrite Forall_forall in F. destruct (F _ K) as (_ & K2 & _). cbn [snd] in K2. congruence.
Qed.
Theorem C77_material : forall m mf mt, made_mat m -> 0 < tm_mat m < 10000 -> exists A p q B,
  (p ++ q = [] -> forall b, b <> mt -> text_in (mat_section m mf b) = [])
  /\ forall m', made_mat m' -> tm_mat m' = tm_mat m ->
  (forall a b, (a, b) <> (mf, mt) -> mat_section m' a b = mat_section m a b) ->
  mat_content m' = Val (closed (A ++ closed (p ++ text_in (mat_section m' mf mt) ++ q) (tm_mat m) ++ B) 0).
Proof.
  intros m mf mt M Hm. destruct (mat_hole m mf mt (made_mat_wf m M) Hm) as (A & p & q & B & N & K). exists A, p, q, B. split; [exact N|]. intros m' M'. apply K. now apply made_mat_wf.
Qed.

(** ** tapes *)
Lemma weak_around {A} k (l l' : list (Z * A)) : ascending Z.le (map fst l) -> ascending Z.le (map fst l') -> (forall j, j <> k -> mmrange j l = mmrange j l') ->
  before k l = before k l' /\ after k l = after k l'.
Proof.
  assert (R : forall (P : Z -> bool) (l : list (Z * A)) j, mmrange j (filter (fun p => P (fst p)) l) = if P j then mmrange j l else []).
  { intros P m j. unfold mmrange. induction m as [|[a v] m IH]; cbn [filter fst map]; [now destruct (P j)|].
    destruct (P a) eqn:Q; cbn [filter fst map]; destruct (Z.eqb_spec a j) as [E|N]; cbn [map snd]; rewrite ?IH; try (subst a; rewrite Q); reflexivity. }
  assert (F : forall (P : Z -> bool) (l : list (Z * A)), ascending Z.le (map fst l) -> ascending Z.le (map fst (filter (fun p => P (fst p)) l))).
  { intros P m. induction m as [|[j v] m IH]; [exact (fun H => H)|]. intros H. cbn [map fst] in H. apply weak_cons in H. destruct H as (G & H). cbn [filter fst]. destruct (P j); [|exact (IH H)].
    cbn [map fst]. apply weak_cons. split; [|exact (IH H)]. rewrite Forall_forall in *. intros i I. apply G. apply in_map_iff in I. destruct I as (q & <- & I). apply filter_In in I. now apply in_map. }
  intros S S' H. split; apply weak_ext; try (apply (F (fun a => a <? k)); assumption); try (apply (F (fun a => k <? a)); assumption); intros j; unfold before, after.
  - rewrite !(R (fun a => a <? k)). destruct (Z.ltb_spec j k); [apply H; lia|reflexivity].
  - rewrite !(R (fun a => k <? a)). destruct (Z.ltb_spec k j); [apply H; lia|reflexivity].
Qed.
Lemma weak_cut {A} k (l : list (Z * A)) : ascending Z.le (map fst l) -> map snd l = map snd (before k l) ++ mmrange k l ++ map snd (after k l).
Proof.
  induction l as [|[j v] l IH]; [reflexivity|]. intros H. cbn [map fst] in H. apply weak_cons in H. destruct H as (F & H). unfold before, after, mmrange. cbn [filter fst map snd]. fold (before k l) (after k l). fold (mmrange k l).
  rewrite (IH H). destruct (Z.ltb_spec j k) as [L|L].
  - replace (j =? k) with false by lia. replace (k <? j) with false by lia. reflexivity.
  - assert (B : before k l = []). { unfold before. clear - F L. induction l as [|[a w] l IH]; [reflexivity|]. cbn [map fst] in F. cbn [filter fst]. replace (a <? k) with false by (apply Forall_inv in F; lia). apply IH. now apply Forall_inv_tail in F. }
    rewrite B. cbn [map app]. destruct (Z.eqb_spec j k) as [E|N].
    + replace (k <? j) with false by lia. reflexivity.
    + replace (k <? j) with true by lia. assert (M : mmrange k l = []).
      { unfold mmrange. clear - F L N. induction l as [|[a w] l IH]; [reflexivity|]. cbn [map fst] in F. cbn [filter fst]. replace (a =? k) with false by (apply Forall_inv in F; lia). apply IH. now apply Forall_inv_tail in F. }
      assert (M2 : map snd (filter (fun p : Z * A => fst p =? k) l) = []) by exact M. rewrite M, M2. reflexivity.
Qed.
Definition materials_of (T : ttape) (k : Z) : list tmat := match tape_material T k with Val l => l | _ => [] end.
Lemma materials_range T k : materials_of T k = mmrange k (tt_mats T).
Proof.
  unfold materials_of, tape_material, tape_has, tape_number. destruct (mmrange k (tt_mats T)) as [|x l]; [reflexivity|]. now replace (negb (Z.of_nat (List.length (x :: l)) =? 0)) with true by (cbn [List.length]; lia).
Qed.
(** tapes that differ in the materials with one number at most *)
Theorem C77_tape : forall T k, made_tape T -> (forall mat, tape_has T mat = true -> 0 < mat < 10000) -> exists A B, forall T', made_tape T' -> tt_tpid T' = tt_tpid T ->
  (forall mat, mat <> k -> tape_material T' mat = tape_material T mat) -> 0 < k < 10000 ->
  forall texts, Forall2 (fun x t => mat_content x = Val t) (materials_of T' k) texts ->
  tape_content T' = Val (closed (A ++ concat texts ++ B) (-1)).
Proof.
  intros T k M Hm. assert (W := made_tape_wf T M). destruct W as (S & F).
  set (mt := fun m : tmat => closed (flat_map (fun p => ftxt (snd p)) (tm_files m)) 0).
  set (id := match tt_tpid T with Some i => pr_tpid i 0 0 0 | None => [] end).
  exists (id ++ flat_map mt (map snd (before k (tt_mats T)))), (flat_map mt (map snd (after k (tt_mats T)))).
  intros T' M' Ei H Hk texts Ht. assert (W' := made_tape_wf T' M'). destruct W' as (S' & F').
  assert (R : forall j, j <> k -> mmrange j (tt_mats T') = mmrange j (tt_mats T)).
  { intros j Hj. rewrite <- !materials_range. unfold materials_of. now rewrite H. }
  assert (G : Forall (fun p => mat_content (snd p) = Val (mt (snd p))) (tt_mats T')).
  { apply Forall_forall. intros [a x] I. cbn [snd]. rewrite Forall_forall in F'. destruct (F' _ I) as (E & Wx). cbn [fst snd] in *. apply mat_content_ftxt; [exact Wx|].
    destruct (Z.eq_dec a k) as [->|N]; [lia|]. rewrite E. apply Hm. unfold tape_has, tape_number. rewrite <- (R a N).
    assert (J : In x (mmrange a (tt_mats T'))) by (unfold mmrange; apply in_map_iff; exists (a, x); split; [reflexivity|]; apply filter_In; split; [exact I|cbn; lia]).
    destruct (mmrange a (tt_mats T')); [destruct J|cbn [List.length]; lia]. }
  assert (Et : flat_map mt (mmrange k (tt_mats T')) = concat texts).
  { rewrite materials_range in Ht. assert (Gk : Forall (fun x => mat_content x = Val (mt x)) (mmrange k (tt_mats T'))).
    { apply Forall_forall. intros x I. unfold mmrange in I. apply in_map_iff in I. destruct I as (p & <- & I). apply filter_In in I. rewrite Forall_forall in G. apply G, I. }
    clear - Ht Gk. revert Gk. induction Ht as [|x t l ts E _ IH]; intros Gk; [reflexivity|]. cbn [flat_map concat]. rewrite (IH (Forall_inv_tail Gk)). f_equal. pose proof (Forall_inv Gk) as E'. congruence. }
  unfold tape_content. rewrite (oconcat_val _ (fun p => mt (snd p)) _ G). rewrite Ei. fold id.
  assert (E : flat_map (fun p => mt (snd p)) (tt_mats T') = flat_map mt (map snd (tt_mats T'))) by (clear; induction (tt_mats T') as [|p l IH]; [reflexivity|]; cbn [flat_map map]; now rewrite IH).
  rewrite E, (weak_cut k _ S'), !flat_map_app, Et. destruct (weak_around k _ _ S' S R) as (-> & ->).
  unfold oapp. cbn [obind]. change (pr_sdiv TEND) with (pr_sdiv (mksdiv zero_cont (-1) 0 0)). rewrite close_closed by (unfold in_cols; cbn; lia). do 2 f_equal. now rewrite !app_assoc.
Qed.

(** ** edits *)
Lemma look_sees m mf mt : look m mf mt = match mat_section m mf mt with Val s => Some s | _ => None end.
Proof. unfold look, mat_section, mat_file, file_section, at_. destruct (mfind mf (tm_files m)) as [f|]; [|reflexivity]. cbn [obind]. now destruct (mfind mt (tf_secs f)). Qed.
Lemma sees_look m m' a b : look m a b = look m' a b -> mat_section m a b = mat_section m' a b.
Proof.
  rewrite !look_sees. assert (K : forall x, (exists s, mat_section x a b = Val s) \/ mat_section x a b = Throw EOor).
  { intros x. unfold mat_section, mat_file, file_section, at_. destruct (mfind a (tm_files x)) as [f|]; [|now right]. cbn [obind]. destruct (mfind b (tf_secs f)); eauto. }
  destruct (K m) as [(s & ->)| ->], (K m') as [(s' & ->)| ->]; congruence.
Qed.
Lemma closed_mid c mat : c <> [] -> closed c mat = c ++ canonical_end mat ++ [LF].
Proof. now destruct c. Qed.
(** a section replaced in a material: the text before it and the text after it are the same *)
Lemma replace_wf : forall m s0 s, wfm m -> 0 < tm_mat m < 10000 -> mat_section m (ts_mf s) (ts_mt s) = Val s0 -> ts_mat s = tm_mat m -> ts_text s0 <> [] -> ts_text s <> [] ->
  snd (mop_run (PutSection s) m) = None
  /\ exists pre post, mat_content m = Val (pre ++ ts_text s0 ++ post) /\ mat_content (fst (mop_run (PutSection s) m)) = Val (pre ++ ts_text s ++ post).
Proof.
  intros m s0 s W Hm E0 Es N0 N. destruct (mop_sim (PutSection s) m (view_of m) W (shows_self m)) as (Sh & Ex).
  assert (W' : wfm (fst (mop_run (PutSection s) m))) by (apply wfm_op; [exact Logic.I|exact W]). set (m' := fst (mop_run (PutSection s) m)) in *.
  cbn [mop_spec view_of v_mat] in Sh, Ex. replace (negb (ts_mat s =? tm_mat m)) with false in Sh, Ex by lia. cbn [fst snd] in Sh, Ex. split; [exact Ex|].
  apply shows_iff in Sh. destruct Sh as (Hm' & _ & L). cbn [put_section v_mat v_sec view_of] in Hm', L.
  destruct (mat_hole m (ts_mf s) (ts_mt s) W Hm) as (A & p & q & B & Kn & K).
  exists (A ++ p), (q ++ (canonical_end (tm_mat m) ++ [LF]) ++ B ++ canonical_end 0 ++ [LF]).
  assert (F : forall t, t <> [] -> closed (A ++ closed (p ++ t ++ q) (tm_mat m) ++ B) 0 = (A ++ p) ++ t ++ q ++ (canonical_end (tm_mat m) ++ [LF]) ++ B ++ canonical_end 0 ++ [LF]).
  { intros t Ht. assert (P : p ++ t ++ q <> []) by (intros Q; apply app_eq_nil in Q; destruct Q as (_ & Q); apply app_eq_nil in Q; now destruct Q).
    rewrite (closed_mid (p ++ t ++ q)) by exact P. rewrite closed_mid.
    - rewrite <- !app_assoc. reflexivity.
    - intros Q. apply app_eq_nil in Q. destruct Q as (_ & Q). rewrite <- app_assoc in Q. apply app_eq_nil in Q. now destruct Q. }
  split.
  - rewrite (K m W eq_refl) by reflexivity. rewrite E0. cbn [text_in]. now rewrite F.
  - rewrite (K m' W' Hm').
    + assert (E : mat_section m' (ts_mf s) (ts_mt s) = Val s).
      { specialize (L (ts_mf s) (ts_mt s)). unfold set2 in L. rewrite !Z.eqb_refl in L. cbn [andb] in L. rewrite look_sees in L. destruct (mat_section m' _ _); congruence. }
      rewrite E. cbn [text_in]. now rewrite F.
    + intros a b Ne. apply sees_look. rewrite L. unfold set2. destruct (Z.eqb_spec a (ts_mf s)) as [->|]; [|reflexivity]. destruct (Z.eqb_spec b (ts_mt s)) as [->|]; [congruence|reflexivity].
Qed.
(** a section removed from a file that keeps another: exactly its text is gone *)
Lemma remove_wf : forall m mf mt s, wfm m -> 0 < tm_mat m < 10000 -> mat_section m mf mt = Val s ->
  (exists mt' s', mt' <> mt /\ mat_section m mf mt' = Val s' /\ ts_text s' <> []) ->
  exists pre post, mat_content m = Val (pre ++ ts_text s ++ post) /\ mat_content (fst (mop_run (RemoveSection mf mt) m)) = Val (pre ++ post).
Proof.
  intros m mf mt s W Hm E0 (mt' & s' & Ne & E1 & N1). destruct (mop_sim (RemoveSection mf mt) m (view_of m) W (shows_self m)) as (Sh & _).
  assert (W' : wfm (fst (mop_run (RemoveSection mf mt) m))) by (apply wfm_op; [exact Logic.I|exact W]). set (m' := fst (mop_run (RemoveSection mf mt) m)) in *.
  cbn [mop_spec view_of v_mat fst] in Sh. apply shows_iff in Sh. destruct Sh as (Hm' & _ & L). cbn [v_mat v_sec view_of] in Hm', L.
  assert (O : forall a b, (a, b) <> (mf, mt) -> mat_section m' a b = mat_section m a b).
  { intros a b Q. apply sees_look. rewrite L. unfold set2. destruct (Z.eqb_spec a mf) as [->|]; [|reflexivity]. destruct (Z.eqb_spec b mt) as [->|]; [congruence|reflexivity]. }
  assert (G : text_in (mat_section m' mf mt) = []).
  { specialize (L mf mt). unfold set2 in L. rewrite !Z.eqb_refl in L. cbn [andb] in L. rewrite look_sees in L. destruct (mat_section m' mf mt); [discriminate|reflexivity|reflexivity]. }
  destruct (mat_hole m mf mt W Hm) as (A & p & q & B & Kn & K).
  assert (Npq : p ++ q <> []).
  { intros Q. specialize (Kn Q mt' Ne). rewrite E1 in Kn. cbn [text_in] in Kn. contradiction. }
  exists (A ++ p), (q ++ (canonical_end (tm_mat m) ++ [LF]) ++ B ++ canonical_end 0 ++ [LF]).
  assert (F : forall t, closed (A ++ closed (p ++ t ++ q) (tm_mat m) ++ B) 0 = (A ++ p) ++ t ++ q ++ (canonical_end (tm_mat m) ++ [LF]) ++ B ++ canonical_end 0 ++ [LF]).
  { intros t. assert (P : p ++ t ++ q <> []) by (intros Q; apply Npq; apply app_eq_nil in Q; destruct Q as (-> & Q); apply app_eq_nil in Q; destruct Q as (_ & ->); reflexivity).
    rewrite (closed_mid (p ++ t ++ q)) by exact P. rewrite closed_mid.
    - rewrite <- !app_assoc. reflexivity.
    - intros Q. apply app_eq_nil in Q. destruct Q as (_ & Q). rewrite <- app_assoc in Q. apply app_eq_nil in Q. destruct Q as (Q & _). exact (P Q). }
  split.
  - rewrite (K m W eq_refl) by reflexivity. rewrite E0. cbn [text_in]. now rewrite F.
  - rewrite (K m' W' Hm' O), G, F. reflexivity.
Qed.
Theorem C77_replace : forall m s0 s, made_mat m -> 0 < tm_mat m < 10000 -> mat_section m (ts_mf s) (ts_mt s) = Val s0 -> ts_mat s = tm_mat m -> ts_text s0 <> [] -> ts_text s <> [] ->
  snd (mop_run (PutSection s) m) = None
  /\ exists pre post, mat_content m = Val (pre ++ ts_text s0 ++ post) /\ mat_content (fst (mop_run (PutSection s) m)) = Val (pre ++ ts_text s ++ post).
Proof. intros m s0 s M. apply replace_wf. now apply made_mat_wf. Qed.
Theorem C77_remove : forall m mf mt s, made_mat m -> 0 < tm_mat m < 10000 -> mat_section m mf mt = Val s ->
  (exists mt' s', mt' <> mt /\ mat_section m mf mt' = Val s' /\ ts_text s' <> []) ->
  exists pre post, mat_content m = Val (pre ++ ts_text s ++ post) /\ mat_content (fst (mop_run (RemoveSection mf mt) m)) = Val (pre ++ post).
Proof. intros m mf mt s M. apply remove_wf. now apply made_mat_wf. Qed.
(** a section inserted into a file that has another: exactly its text is added *)
Theorem C77_insert : forall m s mt' s', made_mat m -> 0 < tm_mat m < 10000 -> ts_mat s = tm_mat m -> mat_hasMFMT m (ts_mf s) (ts_mt s) = false ->
  mat_section m (ts_mf s) mt' = Val s' -> ts_text s' <> [] ->
  snd (mop_run (InsertSection s) m) = None
  /\ exists pre post, mat_content m = Val (pre ++ post) /\ mat_content (fst (mop_run (InsertSection s) m)) = Val (pre ++ ts_text s ++ post).
Proof.
  intros m s mt' s' M Hm Es H E1 N1. assert (W := made_mat_wf m M). destruct (mop_sim (InsertSection s) m (view_of m) W (shows_self m)) as (Sh & Ex).
  assert (W' : wfm (fst (mop_run (InsertSection s) m))) by (apply wfm_op; [exact Logic.I|exact W]). set (m' := fst (mop_run (InsertSection s) m)) in *.
  assert (Ln : look m (ts_mf s) (ts_mt s) = None).
  { unfold look. unfold mat_hasMFMT, file_has, mhas in H. destruct (mfind (ts_mf s) (tm_files m)) as [f|]; [|reflexivity]. now destruct (mfind (ts_mt s) (tf_secs f)). }
  cbn [mop_spec view_of v_mat v_sec] in Sh, Ex. replace (negb (ts_mat s =? tm_mat m)) with false in Sh, Ex by lia. rewrite Ln in Sh, Ex. cbn [fst snd] in Sh, Ex. split; [exact Ex|].
  apply shows_iff in Sh. destruct Sh as (Hm' & _ & L). cbn [put_section v_mat v_sec view_of] in Hm', L.
  assert (O : forall a b, (a, b) <> (ts_mf s, ts_mt s) -> mat_section m' a b = mat_section m a b).
  { intros a b Q. apply sees_look. rewrite L. unfold set2. destruct (Z.eqb_spec a (ts_mf s)) as [->|]; [|reflexivity]. destruct (Z.eqb_spec b (ts_mt s)) as [->|]; [congruence|reflexivity]. }
  assert (G : mat_section m' (ts_mf s) (ts_mt s) = Val s).
  { specialize (L (ts_mf s) (ts_mt s)). unfold set2 in L. rewrite !Z.eqb_refl in L. cbn [andb] in L. rewrite look_sees in L. destruct (mat_section m' _ _); congruence. }
  (* m is m' without the section *)
  assert (G0 : text_in (mat_section m (ts_mf s) (ts_mt s)) = []) by (rewrite look_sees in Ln; destruct (mat_section m (ts_mf s) (ts_mt s)); [discriminate|reflexivity|reflexivity]).
  destruct (mat_hole m (ts_mf s) (ts_mt s) W Hm) as (A & p & q & B & Kn & K).
  assert (Ne : mt' <> ts_mt s) by (intros ->; rewrite look_sees, E1 in Ln; discriminate).
  assert (Npq : p ++ q <> []) by (intros Q; specialize (Kn Q mt' Ne); rewrite E1 in Kn; cbn [text_in] in Kn; contradiction).
  exists (A ++ p), (q ++ (canonical_end (tm_mat m) ++ [LF]) ++ B ++ canonical_end 0 ++ [LF]).
  assert (F : forall t, closed (A ++ closed (p ++ t ++ q) (tm_mat m) ++ B) 0 = (A ++ p) ++ t ++ q ++ (canonical_end (tm_mat m) ++ [LF]) ++ B ++ canonical_end 0 ++ [LF]).
  { intros t. assert (P : p ++ t ++ q <> []) by (intros Q; apply Npq; apply app_eq_nil in Q; destruct Q as (-> & Q); apply app_eq_nil in Q; destruct Q as (_ & ->); reflexivity).
    rewrite (closed_mid (p ++ t ++ q)) by exact P. rewrite closed_mid.
    - rewrite <- !app_assoc. reflexivity.
    - intros Q. apply app_eq_nil in Q. destruct Q as (_ & Q). rewrite <- app_assoc in Q. apply app_eq_nil in Q. destruct Q as (Q & _). exact (P Q). }
  split.
  - rewrite (K m W eq_refl) by reflexivity. rewrite G0, F. reflexivity.
  - rewrite (K m' W' Hm' O), G. cbn [text_in]. now rewrite F.
Qed.
(** the same inside a tape: only the bytes of that section change *)
Theorem C77_tape_replace : forall T a k m b s0 s, made_tape T -> (forall mat, tape_has T mat = true -> 0 < mat < 10000) -> tt_mats T = a ++ (k, m) :: b ->
  mat_section m (ts_mf s) (ts_mt s) = Val s0 -> ts_mat s = k -> ts_text s0 <> [] -> ts_text s <> [] ->
  exists pre post, tape_content T = Val (pre ++ ts_text s0 ++ post)
  /\ tape_content (mkttape (tt_tpid T) (a ++ (k, fst (mop_run (PutSection s) m)) :: b)) = Val (pre ++ ts_text s ++ post).
Proof.
  intros T a k m b s0 s M Hm E E0 Es N0 N. assert (W := made_tape_wf T M). destruct W as (S & F). rewrite E in F. apply Forall_app in F. destruct F as (Fa & Fb).
  assert (Fm := Forall_inv Fb). apply Forall_inv_tail in Fb. cbn [fst snd] in Fm. destruct Fm as (Em & Wm).
  assert (R : forall j x, In (j, x) (tt_mats T) -> 0 < j < 10000).
  { intros j x I. apply Hm. unfold tape_has, tape_number.
    assert (J : In x (mmrange j (tt_mats T))) by (unfold mmrange; apply in_map_iff; exists (j, x); split; [reflexivity|]; apply filter_In; split; [exact I|cbn; lia]).
    destruct (mmrange j (tt_mats T)); [destruct J|cbn [List.length]; lia]. }
  assert (Hk : 0 < k < 10000) by (apply (R k m); rewrite E; apply in_or_app; right; now left).
  destruct (replace_wf m s0 s Wm ltac:(lia) E0 ltac:(congruence) N0 N) as (_ & p & q & C1 & C2).
  set (mt := fun m : tmat => closed (flat_map (fun p => ftxt (snd p)) (tm_files m)) 0).
  assert (G : forall l, Forall (fun p => tm_mat (snd p) = fst p /\ wfm (snd p)) l -> (forall p, In p l -> In p (tt_mats T)) -> oconcat (fun p => mat_content (snd p)) l = Val (flat_map (fun p => mt (snd p)) l)).
  { intros l Fl Il. apply oconcat_val. apply Forall_forall. intros [j x] I. cbn [snd]. rewrite Forall_forall in Fl. destruct (Fl _ I) as (Ej & Wx). cbn [fst snd] in *. apply mat_content_ftxt; [exact Wx|]. rewrite Ej. apply (R j x), Il, I. }
  assert (Ga := G a Fa ltac:(intros x I; rewrite E; apply in_or_app; now left)). assert (Gb := G b Fb ltac:(intros x I; rewrite E; apply in_or_app; right; now right)).
  assert (Oc : forall x t, mat_content x = Val t -> oconcat (fun p => mat_content (snd p)) (a ++ (k, x) :: b) = Val (flat_map (fun p => mt (snd p)) a ++ t ++ flat_map (fun p => mt (snd p)) b)).
  { intros x t Ex. revert Ga. generalize (flat_map (fun p : Z * tmat => mt (snd p)) a). unfold oconcat. clear - Ex Gb. induction a as [|p l IH]; intros u Hu.
    - cbn [fold_right] in *. injection Hu as <-. cbn [app fold_right snd]. unfold oconcat in Gb. rewrite Ex, Gb. reflexivity.
    - cbn [app fold_right] in *. destruct (mat_content (snd p)) as [v| |]; [|discriminate Hu..]. destruct (fold_right _ _ l) as [w| |]; [|discriminate Hu..]. cbn in Hu. injection Hu as <-. rewrite (IH w eq_refl). cbn. now rewrite <- app_assoc. }
  set (id := match tt_tpid T with Some i => pr_tpid i 0 0 0 | None => [] end).
  exists (id ++ flat_map (fun p => mt (snd p)) a ++ p), (q ++ flat_map (fun p => mt (snd p)) b ++ canonical_end (-1) ++ [LF]).
  assert (Fin : forall x t, t <> [] -> mat_content x = Val (p ++ t ++ q) -> tape_content (mkttape (tt_tpid T) (a ++ (k, x) :: b)) = Val ((id ++ flat_map (fun p => mt (snd p)) a ++ p) ++ t ++ q ++ flat_map (fun p => mt (snd p)) b ++ canonical_end (-1) ++ [LF])).
  { intros x t Nt Ex. unfold tape_content. cbn [tt_tpid tt_mats]. rewrite (Oc x _ Ex). fold id. unfold oapp. cbn [obind]. change (pr_sdiv TEND) with (pr_sdiv (mksdiv zero_cont (-1) 0 0)). rewrite close_closed by (unfold in_cols; cbn; lia).
    rewrite closed_mid; [now rewrite <- !app_assoc|]. intros Q. repeat (apply app_eq_nil in Q; destruct Q as (? & Q) || destruct Q as (Q & ?)). 
    assert (Z0 : p ++ t ++ q = []) by assumption. apply app_eq_nil in Z0. destruct Z0 as (_ & Z0). apply app_eq_nil in Z0. now destruct Z0. }
  split; [|now apply Fin].
  assert (ET : T = mkttape (tt_tpid T) (a ++ (k, m) :: b)) by (clear - E; destruct T as [i l]; cbn in *; now rewrite E). rewrite ET at 1. now apply Fin.
Qed.

(** ** a material of two files, one with two sections *)
Definition sx (mf mt : Z) (t : text) : tsec := mktsec 9228 mf mt t.
Definition two_files : tmat := mktmat 9228 [(3, mktfile 9228 3 [(1, sx 3 1 ["a"; LF]%char); (102, sx 3 102 ["b"; LF]%char)]); (4, mktfile 9228 4 [(2, sx 4 2 ["c"; LF]%char)])].
Lemma two_files_made : made_mat two_files.
Proof.
  change two_files with (fst (mop_run (PutSection (sx 4 2 ["c"; LF]%char)) (fst (mop_run (PutSection (sx 3 102 ["b"; LF]%char)) (fst (mop_run (PutSection (sx 3 1 ["a"; LF]%char)) (mktmat 9228 []))))))).
  apply mm_op; [exact Logic.I|]. apply mm_op; [exact Logic.I|]. apply mm_op; [exact Logic.I|constructor].
Qed.
Example C77_example : (exists pre post, mat_content two_files = Val (pre ++ ["b"; LF]%char ++ post) /\ mat_content (fst (mop_run (PutSection (sx 3 102 ["x"; "y"; LF]%char)) two_files)) = Val (pre ++ ["x"; "y"; LF]%char ++ post))
  /\ (exists pre post, mat_content two_files = Val (pre ++ ["a"; LF]%char ++ post) /\ mat_content (fst (mop_run (RemoveSection 3 1) two_files)) = Val (pre ++ post))
  /\ (exists pre post, mat_content two_files = Val (pre ++ post) /\ mat_content (fst (mop_run (InsertSection (sx 3 18 ["z"; LF]%char)) two_files)) = Val (pre ++ ["z"; LF]%char ++ post)).
Proof.
  assert (M := two_files_made). split; [|split].
  - apply (C77_replace two_files (sx 3 102 ["b"; LF]%char) (sx 3 102 ["x"; "y"; LF]%char)); try assumption; try reflexivity; try (cbn; lia); discriminate.
  - apply (C77_remove two_files 3 1 (sx 3 1 ["a"; LF]%char)); try assumption; try reflexivity; try (cbn; lia). exists 102, (sx 3 102 ["b"; LF]%char). split; [lia|]. split; [reflexivity|discriminate].
  - apply (C77_insert two_files (sx 3 18 ["z"; LF]%char) 1 (sx 3 1 ["a"; LF]%char)); try assumption; try reflexivity; try (cbn; lia). discriminate.
Qed.
(** the last section of a file takes the FEND with it *)
Theorem C77_refuted : exists m mf mt s, made_mat m /\ mat_section m mf mt = Val s /\ ts_text s <> []
  /\ ~ exists pre post, mat_content m = Val (pre ++ ts_text s ++ post) /\ mat_content (fst (mop_run (RemoveSection mf mt) m)) = Val (pre ++ post).
Proof.
  exists two_files, 4, 2, (sx 4 2 ["c"; LF]%char). split; [exact two_files_made|]. split; [reflexivity|]. split; [discriminate|]. intros (pre & post & H1 & H2).
  assert (K : match mat_content two_files, mat_content (fst (mop_run (RemoveSection 4 2) two_files)) with Val u, Val v => List.length u =? 2 + List.length v | _, _ => false end%nat = false) by (vm_compute; reflexivity).
  rewrite H1, H2 in K. rewrite !app_length in K. cbn [sx ts_text List.length] in K. lia.
Qed.
