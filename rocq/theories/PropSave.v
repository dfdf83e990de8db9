(** PropSave.v -- C70: a tree written out and read in again. *)
From Coq Require Import ZifyBool ZifyNat.
From Verif Require Import Base Disco Records RecordProofs PropSec451 Spec LineFacts Sections SecSpec SectionProofs Sec451 Tree TreeSpec TreeProofs TreeGrammar TreeMaps PropTree PropTree2 EditSpec PropEdit PropEdit2
  Typed TypedSpec TypedProofs PropTyped PropTyped2 PropAgree Classes PropClasses PropAgree2 Parse PropParse TypedEdit PropTypedEdit.
Open Scope Z_scope.
Notation length := List.length.

(** ** specification *)
(** the same sections, text for text; the files of the second are those of the first that have sections *)
Definition same_tree (x x' : tmat) : Prop :=
  tm_mat x' = tm_mat x
  /\ (forall mf, mat_hasMF x' mf = true <-> exists mt, mat_hasMFMT x mf mt = true)
  /\ (forall mf mt, mat_hasMFMT x' mf mt = mat_hasMFMT x mf mt)
  /\ (forall mf mt s, mat_section x' mf mt = Val s <-> mat_section x mf mt = Val s)
  /\ mat_content x' = mat_content x.
Definition has_section (x : tmat) : Prop := exists mf mt, mat_hasMFMT x mf mt = true.

(** the same materials under every number, but for those without sections *)
Definition same_materials (T T' : ttape) : Prop :=
  (forall mat, tape_has T mat = false -> tape_has T' mat = false)
  /\ forall mat l, tape_material T mat = Val l -> exists keep, (forall x, In x l -> keep x = true <-> has_section x)
       /\ tape_number T' mat = len (filter keep l)
       /\ (filter keep l <> [] -> exists l', tape_material T' mat = Val l' /\ Forall2 same_tree (filter keep l) l').

(** ** proofs *)
Lemma prune_tree x : wfm x -> same_tree x (prune x).
Proof.
  intros W. split; [reflexivity|]. split; [|split; [|split]].
  - intros mf. unfold mat_hasMF, mhas, prune. cbn [tm_files]. rewrite (mfind_filter full _ _ (proj1 W)). unfold mat_hasMFMT. destruct (mfind mf (tm_files x)) as [f|]; [|split; [discriminate|intros (mt & K); discriminate K]].
    unfold full. cbn [snd]. unfold file_has, mhas. destruct (tf_secs f) as [|[j s] r]; [split; [discriminate|intros (mt & K); discriminate K]|]. split; [intros _; exists j; cbn [mfind]; now rewrite Z.eqb_refl|reflexivity].
  - intros mf mt. apply (prune_section x mf mt W).
  - intros mf mt s. now apply prune_val.
  - apply prune_content.
Qed.
(** ** C70 *)
Theorem C70_file : forall f, made_file f -> 0 < tf_mat f < 10000 -> (exists mt, file_has f mt = true) ->
  (forall mt s, file_section f mt = Val s -> ts_mat s = tf_mat f /\ section_text s) ->
  exists t s, file_content f = Val t /\ index_file t = Ok f s.
Proof.
  intros f Mf Hm (mt0 & H0) Hs. assert (W := made_file_wf f Mf).
  destruct (file_source f W) as (e & O & C & E & M); [intros K; unfold file_has, mhas in H0; rewrite K in H0; discriminate H0|exact Hm| |].
  { intros k s I. apply (Hs k s). unfold file_section, at_. now rewrite (strict_find _ _ _ (proj1 W) I). }
  destruct (index_file_src e O C) as (s & Ei). exists (lines_text (file_all e)), s. split; [|rewrite Ei, E; reflexivity]. rewrite <- E. now apply canon_file_content.
Qed.
Theorem C70_material : forall x, made_mat x -> savable x -> exists t x' s, mat_content x = Val t /\ index_mat t = Ok x' s /\ same_tree x x'.
Proof.
  intros x Mx S. assert (W := made_mat_wf x Mx). destruct (mat_source x W S) as (e & O & C & E & _). destruct (index_mat_src e O C) as (s & Ei).
  exists (lines_text (mat_all e)), (prune x), s. split; [rewrite <- prune_content, <- E; now apply canon_mat_content|]. split; [rewrite Ei, E; reflexivity|now apply prune_tree].
Qed.
(** a tape: what is read in again has, under every number, the materials that have sections, in their order; writing it gives the same text.  The tape number is lost *)
Lemma reload T i : wft T -> tt_tpid T = Some i -> (length (tptext i) <= 66)%nat -> noLF (tptext i) -> (forall k x, In (k, x) (tt_mats T) -> savable x) ->
  exists t s, tape_content T = Val t /\ index_tape t = Ok (mkttape (Some (mktpid (lj 66 (tptext i)) 0)) (map (fun p => (fst p, prune (snd p))) (tt_mats T))) s.
Proof.
  intros (Wa & Wk) Ti Li Ni Hr.
  destruct (list_ex (fun p e => mat_ok e /\ canonical_mat e /\ mat_entry e = (fst p, prune (snd p)) /\ mat_content (snd p) = Val (lines_text (mat_all e))) (tt_mats T)) as (es & F).
  { rewrite Forall_forall in *. intros [k x] I. destruct (Wk _ I) as (K & Wx). cbn [fst snd] in *. destruct (mat_source x Wx (Hr k x I)) as (e & O & C & E & _). exists e. split; [exact O|]. split; [exact C|]. split.
    - unfold mat_entry. rewrite E. f_equal. change (m_mat e) with (tm_mat (mat_tree e)). rewrite E. exact K.
    - rewrite <- prune_content, <- E. now apply canon_mat_content. }
  destruct (tape_tpid_line i Li Ni) as (l0 & Ep & Nl & Tl & c0 & Lc & Ec).
  set (src := mkts l0 es (canonical_end (-1))). assert (C1 : in_cols 4 (-1)) by (unfold in_cols; cbn; lia).
  assert (Ae : Forall (fun e => mat_ok e /\ canonical_mat e) es) by (clear - F; induction F as [|p e l r H _ IH]; constructor; tauto).
  assert (Me : map mat_entry es = map (fun p => (fst p, prune (snd p))) (tt_mats T)) by (clear - F; induction F as [|p e l r H _ IH]; [reflexivity|]; cbn [map]; f_equal; tauto).
  assert (Sep : separated_all es).
  { clear - Ae. induction Ae as [|e l (_ & P) A IH]; [exact Logic.I|]. cbn. destruct l as [|e' l]; [exact Logic.I|]. split; [|exact IH]. intros K. destruct P as (_ & P & _). rewrite K in P. discriminate P. }
  assert (O : tape_ok src).
  { split; [eexists; exact Tl|]. split; [exact Nl|]. cbn [x_mats src x_tend]. split; [eapply Forall_impl; [|exact Ae]; cbn; tauto|]. split; [exact Sep|]. split; [|now apply canon_noLF].
    exists (mksdiv zero_cont (-1) 0 0). split; [apply canon_div; [exact C1|lia]|]. cbn. repeat split; lia. }
  set (t := lines_text (tape_all src)).
  assert (Ht : tape_text src t).
  { exists (lines_text [x_tend src]). unfold t, tape_all. split.
    - rewrite app_comm_cons, lines_app. reflexivity.
    - unfold lines_text. cbn [flat_map]. rewrite app_nil_r, next_line_app; [reflexivity|]. apply O. }
  assert (Ct : tape_content T = Val t).
  { unfold tape_content. rewrite Ti, Ep. assert (Em : oconcat (fun p : Z * tmat => mat_content (snd p)) (tt_mats T) = Val (lines_text (flat_map mat_all es))).
    { rewrite lines_flat. clear - F. induction F as [|p e l r H _ IH]; [reflexivity|]. unfold oconcat in *. cbn [fold_right flat_map]. destruct H as (_ & _ & _ & ->). rewrite IH. reflexivity. }
    rewrite Em. unfold oapp. cbn [obind]. change (Val (pr_sdiv TEND)) with (Val (pr_sdiv (mksdiv zero_cont (-1) 0 0))). rewrite pr_end by exact C1. rewrite close_val; [|destruct l0; discriminate].
    f_equal. unfold t, tape_all, src. cbn [x_tpid x_mats x_tend]. rewrite lines_cons', lines_app, lines_one, <- !app_assoc. reflexivity. }
  exists t. destruct (proj2 (index_tape_grammar t (tape_tree src (mktpid (lj 66 (tptext i)) 0)))) as (s & Ei).
  { exists src, (mktpid (lj 66 (tptext i)) 0). split; [exact O|]. split; [exact Ht|]. split; [exact Tl|reflexivity]. }
  exists s. split; [exact Ct|]. rewrite Ei. f_equal. unfold tape_tree, src. cbn [x_mats]. rewrite Me. rewrite fold_mmput_asc; [reflexivity|]. cbn [app]. rewrite map_map. exact Wa.
Qed.
Lemma prune_twice x : prune (prune x) = prune x.
Proof. unfold prune. cbn [tm_files tm_mat]. f_equal. induction (tm_files x) as [|p l IH]; [reflexivity|]. cbn [filter]. destruct (full p) eqn:E; [cbn [filter]; rewrite E; now f_equal|exact IH]. Qed.
Lemma mapped_range (l : list (Z * tmat)) mat : mmrange mat (map (fun p => (fst p, prune (snd p))) l) = map prune (mmrange mat l).
Proof. rewrite !mm_filter. induction l as [|[k x] l IH]; [reflexivity|]. cbn [map filter fst snd]. destruct (k =? mat); cbn [map snd]; now rewrite IH. Qed.
Theorem C70_tape : forall T i, made_tape T -> tt_tpid T = Some i -> (length (tptext i) <= 66)%nat -> noLF (tptext i) ->
  (forall mat l x, tape_material T mat = Val l -> In x l -> has_section x -> savable x) ->
  exists t T' s, tape_content T = Val t /\ index_tape t = Ok T' s /\ tt_tpid T' = Some (mktpid (lj 66 (tptext i)) 0)
    /\ same_materials T T' /\ tape_content T' = Val t.
Proof.
  intros T i Mt Ti Li Ni Hr. assert (W := made_tape_wf T Mt). assert (Ws := strip_wf T W).
  assert (Wm : forall k x, In (k, x) (tt_mats T) -> wfm x) by (intros k x I; destruct W as (_ & W); rewrite Forall_forall in W; apply (W _ I)).
  assert (Hs : forall k x, In (k, x) (tt_mats (strip T)) -> savable x).
  { intros k x I. cbn [strip tt_mats] in I. apply filter_In in I. destruct I as (I & K). cbn [snd] in K. apply (Hr k (mmrange k (tt_mats T)) x).
    - apply material_range. split; [|reflexivity]. rewrite mm_filter. intros K0. assert (J : In (k, x) (filter (fun p => fst p =? k) (tt_mats T))) by (apply filter_In; split; [exact I|cbn; lia]). apply (in_map snd) in J. rewrite K0 in J. destruct J.
    - rewrite mm_filter. apply in_map_iff. exists (k, x). split; [reflexivity|]. apply filter_In. split; [exact I|cbn; lia].
    - apply written_spec; [exact (Wm k x I)|exact K]. }
  destruct (reload (strip T) i Ws Ti Li Ni Hs) as (t & s & Ct & Ei). rewrite strip_content in Ct. exists t. eexists. exists s. split; [exact Ct|]. split; [exact Ei|]. split; [reflexivity|].
  set (T' := mkttape _ _) in *. assert (R : forall mat, mmrange mat (tt_mats T') = map prune (filter written (mmrange mat (tt_mats T)))) by (intros mat; unfold T'; cbn [tt_mats]; rewrite mapped_range; f_equal; apply strip_range).
  split; [split|].
  - intros mat. unfold tape_has, tape_number. rewrite R, map_length. destruct (mmrange mat (tt_mats T)); [reflexivity|]. cbn [length]. intros K. exfalso. lia.
  - intros mat l El. apply material_range in El. destruct El as (Ne & ->). exists written. split; [|split].
    + intros x Ix. apply written_spec. rewrite mm_filter in Ix. apply in_map_iff in Ix. destruct Ix as ([k y] & <- & I). apply filter_In in I. exact (Wm k y (proj1 I)).
    + unfold tape_number. rewrite R, map_length. reflexivity.
    + intros Nf. exists (map prune (filter written (mmrange mat (tt_mats T)))). split.
      * apply material_range. rewrite R. split; [|reflexivity]. destruct (filter written (mmrange mat (tt_mats T))); [congruence|discriminate].
      * assert (A : Forall wfm (filter written (mmrange mat (tt_mats T)))). { apply Forall_forall. intros x Ix. apply filter_In in Ix. destruct Ix as (Ix & _). rewrite mm_filter in Ix. apply in_map_iff in Ix. destruct Ix as ([k y] & <- & I). apply filter_In in I. exact (Wm k y (proj1 I)). }
        clear Nf. induction A as [|x r Wx _ IH]; [constructor|]. cbn [map]. constructor; [now apply prune_tree|exact IH].
  - assert (W' : wft T').
    { destruct Ws as (A & B). split; unfold T'; cbn [tt_mats]; [rewrite map_map; exact A|]. rewrite Forall_map. eapply Forall_impl; [|exact B]. intros [k x] (E & Wx). cbn [fst snd] in *. split; [exact E|now apply prune_wf]. }
    unfold T', tape_content. cbn [tt_tpid tt_mats]. rewrite <- Ct, <- strip_content. unfold tape_content. cbn [strip tt_tpid tt_mats]. rewrite Ti.
    replace (pr_tpid (mktpid (lj 66 (tptext i)) 0) 0 0 0) with (pr_tpid i 0 0 0); [|unfold pr_tpid; cbn [tptext]; now rewrite (lj_self 66 (lj 66 (tptext i))) by (unfold lj; rewrite app_length; unfold blanks; rewrite repeat_length; lia)].
    f_equal. f_equal. generalize (filter (fun p : Z * tmat => written (snd p)) (tt_mats T)). intros l. unfold oconcat. induction l as [|p l IH]; [reflexivity|]. cbn [map fold_right]. cbn [snd]. now rewrite prune_content, IH.
Qed.
(** a material edited with typed sections, written out and read in again: every section still parses as the history says *)
Theorem C70_edited : forall m t l, made_mat m -> 0 < tm_mat m < 10000 -> Forall yop_ok l -> shows_typed m t -> has_texts m ->
  (exists mf mt y, t_sec (fst (EditSpec.run yop_spec l t)) mf mt = Some y) ->
  exists m' u x s, yrun l m = Val (m', snd (EditSpec.run yop_spec l t)) /\ mat_content m' = Val u /\ index_mat u = Ok x s
    /\ forall mf mt, match t_sec (fst (EditSpec.run yop_spec l t)) mf mt with
                     | Some y => mat_hasMFMT x mf mt = true /\ exists s, mat_section x mf mt = Val s /\ parsed_as s y
                     | None => mat_hasMFMT x mf mt = false
                     end.
Proof.
  intros m t l Mm Hm Ho S W (mf0 & mt0 & y0 & E0). destruct (proj1 (shows_over_text m t) (conj S W)) as (v & Sv & O).
  destruct (hist text_of l (fun _ _ P => conj (proj1 P) (proj1 (proj2 P))) Ho m v t Mm Hm Sv O) as (m' & xs & v' & A & B & Tm & C & D & E). set (t' := fst (EditSpec.run yop_spec l t)) in *.
  destruct (proj2 (shows_over_text m' t') (ex_intro _ v' (conj C D))) as ((_ & _ & T3) & W').
  assert (Sm : savable m') by (split; [now rewrite Tm|]; split; [exists mf0, mt0; specialize (T3 mf0 mt0); rewrite E0 in T3; apply T3|exact W']).
  destruct (C70_material m' B Sm) as (u & x & s & Eu & Ex & (_ & _ & H3 & H4 & _)). exists m', u, x, s. split; [rewrite A, E; reflexivity|]. split; [exact Eu|]. split; [exact Ex|].
  intros mf mt. specialize (T3 mf mt). destruct (t_sec t' mf mt) as [y|]; rewrite H3; [|apply T3]. destruct T3 as (T3 & s1 & T4 & T5). split; [exact T3|]. exists s1. split; [now apply H4|exact T5].
Qed.
(** a material without sections is written as nothing, and nothing is read as material 0 *)
Theorem C70_empty_refuted : forall mat, made_mat (mktmat mat []) /\ mat_content (mktmat mat []) = Val []
  /\ exists x s, index_mat [] = Ok x s /\ tm_mat x = 0 /\ forall mf, mat_hasMF x mf = false.
Proof. intros mat. split; [constructor|]. split; [reflexivity|]. exists (mktmat 0 []), (mkst [] 1). split; [vm_compute; reflexivity|]. split; reflexivity. Qed.
(** the number of the tape is not written *)
Definition numbered : ttape := mkttape (Some (mktpid (blanks 66) 7)) [].
Theorem C70_tape_number_refuted : made_tape numbered
  /\ exists t T s, tape_content numbered = Val t /\ index_tape t = Ok T s /\ tt_tpid T = Some (mktpid (blanks 66) 0).
Proof.
  split; [constructor|]. assert (Nb : noLF (tptext (mktpid (blanks 66) 7))) by apply noLF_blanks.
  destruct (C70_tape numbered (mktpid (blanks 66) 7) ltac:(constructor) eq_refl ltac:(cbn [tptext]; unfold blanks; rewrite repeat_length; lia) Nb) as (t & T & s & A & B & C & _).
  - intros mat l x E. discriminate E.
  - exists t, T, s. split; [exact A|]. split; [exact B|]. rewrite C. reflexivity.
Qed.
Example C70_example : exists T s i, index_tape two_sends = Ok T s /\ made_tape T /\ tt_tpid T = Some i /\ (length (tptext i) <= 66)%nat /\ noLF (tptext i)
  /\ tape_has T 9228 = true /\ forall mat l x, tape_material T mat = Val l -> In x l -> savable x.
Proof.
  destruct C66_example as (s & e & E & _ & H). exists ex_tree, s. destruct (proj1 (C66_indexed _ _ _ E)) as (i & Ti & Li & Ni). exists i. split; [exact E|]. split; [exact (mt_index _ _ _ E)|]. split; [exact Ti|]. split; [lia|]. split; [exact Ni|]. split; [reflexivity|].
  intros mat l x El Ix. apply ready_savable. exact (proj1 H mat l x El Ix).
Qed.
