(** PropPadSend.v -- C75, continued: clean() of a material, a tape of which the SEND lines may
    hold anything that is read as a SEND record (zeros, as most evaluations do). *)
From Coq Require Import ZifyBool.
From Verif Require Import Base Disco DiscoProofs Records Spec LineFacts Tree Nested Typed Classes PropClasses PropAgree2 TreeSpec TreeMaps TreeGrammar EditSpec PropEdit PropEdit2 PropClean Parse PropParse Sections TypedProofs PropTyped3 Keeps PropPad.
From Verif Require Import SecSpec.
From Verif Require PropTree2 PropNested.
Open Scope Z_scope.

(** a section of lines that carry its numbers, the first of which is its HEAD, and a line that
    is read as its SEND record *)
Definition signed (s : tsec) : Prop := exists h b e,
  ts_text s = lines_text (h :: b ++ [e]) /\ head_line (ts_mat s) (ts_mf s) (ts_mt s) h
  /\ 0 < ts_mat s < 10000 /\ 0 < ts_mf s < 100 /\ in_cols 3 (ts_mt s)
  /\ Forall noLF (h :: b ++ [e]) /\ Forall (carries (ts_mat s) (ts_mf s) (ts_mt s)) (h :: b)
  /\ Z.of_nat (List.length (h :: b)) < 2 ^ 31
  /\ (ts_mf s = 32 -> Forall (fun l => (66 <= List.length l)%nat) (h :: b ++ [e]))
  /\ exists u r, rd_SEND (ts_mat s) (ts_mf s) (mkst (lines_text [e]) 1) = Ok u r.

Lemma head_same mat mf mt l l' : noLF l -> noLF l' -> same_fields l l' -> head_line mat mf mt l -> head_line mat mf mt l'.
Proof.
  intros N N' S (A & B & C & d & D & E). split; [exact A|]. split; [exact B|]. split; [exact C|]. exists d. split; [|exact E].
  assert (K := rd_line l d [] 0 N D).
  assert (L : like_lines false [l] [l']) by (split; [repeat constructor; auto|]; split; [repeat constructor; auto|]; split; [repeat constructor; apply S|discriminate]).
  apply like_rel with (ln := 0) in L. pose proof (sdiv_rel false _ _ L) as R. unfold lines_text in R. cbn [flat_map] in R. rewrite !app_nil_r, K in R.
  clear K. destruct (rd_sdiv _) as [d' t| |] eqn:E'; try contradiction. destruct R as (<- & _). apply sdiv_here in E'. destruct E' as (E' & _).
  unfold nth_line in E'. rewrite next_line_app in E' by exact N'. exact E'.
Qed.
(** cleaning keeps it a section of the tree and what it is parsed as *)
Lemma signed_clean s : signed s -> snd (sec_clean s) = None /\ section_text (fst (sec_clean s)) /\ long_end (ts_text (fst (sec_clean s)))
  /\ forall y, parsed_as s y <-> parsed_as (fst (sec_clean s)) y.
Proof.
  intros (h & b & e & Et & Hh & Hm & Hf & Ht & N & C & Hn & G & Se). destruct s as [mat mf mt t]. cbn [ts_mat ts_mf ts_mt ts_text] in *. subst t.
  assert (Hz : mt <> 0) by apply Hh.
  assert (Gt : good_tail mat mf mt) by (split; [unfold in_cols; change (10 ^ (4 - 1)) with 1000; change (10^4) with 10000; lia|split; [unfold in_cols; cbn; lia|exact Ht]]).
  assert (G0 : good_tail mat mf 0) by (split; [exact (proj1 Gt)|split; [exact (proj1 (proj2 Gt))|split; reflexivity]]).
  change (h :: b ++ [e]) with ((h :: b) ++ [e]) in *. set (ls := h :: b) in *.
  assert (Ce := clean_eq mat mf mt ls e Hm Hf Ht N C Hn). 
  assert (Ec : canonical_send mat mf = clean_line mat mf 0 []) by reflexivity.
  assert (Nl := N). apply Forall_app in Nl. destruct Nl as [Nl Ne].
  assert (Ncl : Forall noLF (map (clean_line mat mf mt) ls)). { apply Forall_map. eapply Forall_impl; [|exact Nl]. cbv beta. intros l Hl. apply (clean_line_ok mat mf mt l Gt Hl). }
  assert (Ncs : noLF (canonical_send mat mf)) by apply canon_send_noLF.
  split; [rewrite Ce; reflexivity|]. split; [|split].
  - rewrite Ce. cbn [fst]. exists (clean_line mat mf mt h), (map (clean_line mat mf mt) b), (canonical_send mat mf). cbn [ts_text ts_mat ts_mf ts_mt].
    split; [reflexivity|]. split; [|split; [|split]].
    + apply (head_same _ _ _ h); [exact (Forall_inv Nl)|exact (Forall_inv Ncl)|apply clean_fields; [exact Gt|exact (Forall_inv C)]|exact Hh].
    + apply Forall_map, Forall_forall. intros l _. exists mat, mf, mt. split; [now apply carries_clean|exact Hz].
    + exists mat, mf. rewrite Ec. now apply carries_clean.
    + change (Forall noLF (map (clean_line mat mf mt) ls ++ [canonical_send mat mf])). apply Forall_app. split; [exact Ncl|repeat constructor; exact Ncs].
  - rewrite Ce. cbn [fst ts_text]. exists (lines_text (map (clean_line mat mf mt) ls)), (canonical_send mat mf). split; [rewrite lines_app; unfold lines_text at 2; cbn [flat_map]; now rewrite app_nil_r|].
    split; [exact Ncs|]. unfold canonical_send. rewrite app_length, blanks_length. lia.
  - intros y. destruct (sec_clean_nums (mktsec mat mf mt (lines_text (ls ++ [e])))) as (_ & Y2 & Y3). cbn [ts_mf ts_mt] in Y2, Y3.
    unfold parsed_as. rewrite Y2, Y3. cbn [ts_mf ts_mt]. destruct y as [c x]. cbn [projT1 projT2].
    split; intros (L & P); (split; [exact L|]); destruct (lib_class_inv _ _ _ L) as (Em & _); rewrite class_mf_ok in Em.
    all: destruct (C75_clean c mat mf mt ls e Hm Hf Em Ht Hz ltac:(discriminate) N C Hn) as (_ & K); [intros ->; apply G; exact (class_32 _ _ L)|].
    + apply K in P. apply P.
    + apply K. split; [exact P|exact Se].
Qed.

Lemma mfind_map {A} (g : A -> A) k (l : list (Z * A)) : mfind k (map (fun p => (fst p, g (snd p))) l) = option_map g (mfind k l).
Proof. induction l as [|[a v] l IH]; [reflexivity|]. cbn [map mfind fst snd]. destruct (k =? a); [reflexivity|exact IH]. Qed.
(** every section of the file, of the material is signed *)
Definition all_signed (x : tmat) : Prop := forall mf mt s, mat_section x mf mt = Val s -> signed s.
Lemma file_signed f : Forall (fun p => signed (snd p)) (tf_secs f) -> file_clean f = (mktfile (tf_mat f) (tf_mf f) (map (fun ps => (fst ps, fst (sec_clean (snd ps)))) (tf_secs f)), None).
Proof. intros H. unfold file_clean. rewrite clean_all_ok; [reflexivity|]. eapply Forall_impl; [|exact H]. cbv beta. intros p Hp. apply (signed_clean _ Hp). Qed.
Lemma signed_forall x : wfm x -> all_signed x -> Forall (fun p => Forall (fun q => signed (snd q)) (tf_secs (snd p))) (tm_files x).
Proof.
  intros W H. apply Forall_forall. intros [k f] If. apply Forall_forall. intros [j s] Is. cbn [snd] in *. exact (H k j s (full_sections x k f j s W If Is)).
Qed.
Lemma mat_signed x : wfm x -> all_signed x -> mat_clean x = (mktmat (tm_mat x) (map (fun p => (fst p, mktfile (tf_mat (snd p)) (tf_mf (snd p)) (map (fun ps => (fst ps, fst (sec_clean (snd ps)))) (tf_secs (snd p))))) (tm_files x)), None).
Proof.
  intros W H. apply signed_forall in H; [|exact W]. unfold mat_clean. rewrite clean_all_ok.
  - do 2 f_equal. apply map_ext_in. intros p Ip. rewrite Forall_forall in H. now rewrite (file_signed _ (H p Ip)).
  - eapply Forall_impl; [|exact H]. cbv beta. intros p Hp. now rewrite (file_signed _ Hp).
Qed.
(** what the lookups of a cleaned material show *)
Lemma clean_sees x : wfm x -> all_signed x -> snd (mat_clean x) = None /\ tm_mat (fst (mat_clean x)) = tm_mat x
  /\ (forall mf mt, mat_hasMFMT (fst (mat_clean x)) mf mt = mat_hasMFMT x mf mt)
  /\ (forall mf mt s', mat_section (fst (mat_clean x)) mf mt = Val s' <-> exists s, mat_section x mf mt = Val s /\ s' = fst (sec_clean s)).
Proof.
  intros W H. rewrite (mat_signed x W H). cbn [fst snd tm_mat]. split; [reflexivity|]. split; [reflexivity|].
  set (g := fun f => mktfile (tf_mat f) (tf_mf f) (map (fun ps => (fst ps, fst (sec_clean (snd ps)))) (tf_secs f))).
  change (map (fun p => (fst p, mktfile (tf_mat (snd p)) (tf_mf (snd p)) (map (fun ps => (fst ps, fst (sec_clean (snd ps)))) (tf_secs (snd p))))) (tm_files x)) with (map (fun p => (fst p, g (snd p))) (tm_files x)).
  split.
  - intros mf mt. unfold mat_hasMFMT. cbn [tm_files]. rewrite mfind_map. destruct (mfind mf (tm_files x)) as [f|]; [|reflexivity]. cbn [option_map]. unfold file_has, mhas, g. cbn [tf_secs].
    rewrite (mfind_map (fun s => fst (sec_clean s))). now destruct (mfind mt (tf_secs f)).
  - intros mf mt s'. unfold mat_section, mat_file, at_. cbn [tm_files]. rewrite mfind_map. destruct (mfind mf (tm_files x)) as [f|]; cbn [option_map obind]; [|split; [discriminate|intros (s & K & _); discriminate]].
    unfold file_section, at_, g. cbn [tf_secs]. rewrite (mfind_map (fun s => fst (sec_clean s))). destruct (mfind mt (tf_secs f)) as [s|]; cbn [option_map].
    + split; [intros K; injection K as <-; eauto|intros (s1 & K & ->); injection K as ->; reflexivity].
    + split; [discriminate|intros (s & K & _); discriminate].
Qed.
Lemma clean_ready x : wfm x -> all_signed x -> ready x -> ready (fst (mat_clean x)).
Proof.
  intros W H (R1 & (a & c & R2) & R3 & R4). destruct (clean_sees x W H) as (_ & Em & Eh & Es).
  split; [now rewrite Em|]. split; [exists a, c; now rewrite Eh|]. split.
  - intros mf mt s' K. apply Es in K. destruct K as (s & K & ->). destruct (R3 _ _ _ K) as (A & _ & C & _). destruct (signed_clean s (H _ _ _ K)) as (_ & T & L & _).
    split; [rewrite Em; destruct (sec_clean_nums s) as (-> & _); exact A|]. split; [exact T|]. split; [exact C|]. intros _. exact L.
  - intros n Hn Hmin. rewrite Eh in Hn. apply R4; [exact Hn|]. intros mt Hmt. apply Hmin. now rewrite Eh.
Qed.
Lemma clean_parsed x : wfm x -> all_signed x ->
  ((forall mf mt s, mat_section (fst (mat_clean x)) mf mt = Val s -> exists y, parsed_as s y) <-> (forall mf mt s, mat_section x mf mt = Val s -> exists y, parsed_as s y))
  /\ forall mf mt v, (exists s, mat_section (fst (mat_clean x)) mf mt = Val s /\ parsed_as s v) <-> (exists s, mat_section x mf mt = Val s /\ parsed_as s v).
Proof.
  intros W H. destruct (clean_sees x W H) as (_ & _ & _ & Es). split; [split|].
  - intros A mf mt s K. destruct (A mf mt (fst (sec_clean s))) as (y & Y); [apply Es; eauto|]. exists y. now apply (signed_clean s (H _ _ _ K)).
  - intros A mf mt s' K. apply Es in K. destruct K as (s & K & ->). destruct (A _ _ _ K) as (y & Y). exists y. now apply (signed_clean s (H _ _ _ K)).
  - intros mf mt v. split.
    + intros (s' & K & P). apply Es in K. destruct K as (s & K & ->). exists s. split; [exact K|]. now apply (signed_clean s (H _ _ _ K)).
    + intros (s & K & P). exists (fst (sec_clean s)). split; [apply Es; eauto|]. now apply (signed_clean s (H _ _ _ K)).
Qed.
Lemma same_seen x y y' : wfm x -> all_signed x -> same_sections x y -> same_sections (fst (mat_clean x)) y' -> same_material_seen y y'.
Proof.
  intros W H (A1 & _ & A3 & A4) (B1 & _ & B3 & B4). destruct (clean_sees x W H) as (_ & Em & Eh & _). destruct (clean_parsed x W H) as (_ & P).
  split; [congruence|]. intros mf mt. split; [rewrite <- A3, <- B3; now rewrite Eh|]. intros v. rewrite A4, B4. symmetry. apply P.
Qed.
(** a material of signed sections parses before clean() exactly when it does afterwards, to the same sections *)
Theorem C75_cleaned_material : forall x, made_mat x -> ready x -> all_signed x ->
  snd (mat_clean x) = None
  /\ ((exists y, mat_parse skind_of lib_class x = Val y) <-> exists y, mat_parse skind_of lib_class (fst (mat_clean x)) = Val y)
  /\ forall y y', mat_parse skind_of lib_class x = Val y -> mat_parse skind_of lib_class (fst (mat_clean x)) = Val y' -> same_material_seen y y'.
Proof.
  intros x M R H. assert (W := made_mat_wf x M). destruct (clean_sees x W H) as (E & _). split; [exact E|].
  assert (M' : made_mat (fst (mat_clean x))) by (eapply mm_edit; [exact M|constructor]).
  destruct (C66_material x M R) as (A & S). destruct (C66_material _ M' (clean_ready x W H R)) as (A' & S'). destruct (clean_parsed x W H) as (P & _).
  split; [rewrite A, A', P; reflexivity|]. intros y y' K K'. apply (same_seen x); auto.
Qed.

(** ** a tape *)
Definition cleaned (l : list (Z * tmat)) : list (Z * tmat) := map (fun p => (fst p, fst (mat_clean (snd p)))) l.
Lemma cleaned_range mat l : mmrange mat (cleaned l) = map (fun x => fst (mat_clean x)) (mmrange mat l).
Proof.
  unfold mmrange, cleaned. induction l as [|[k x] l IH]; [reflexivity|]. cbn [map filter fst snd]. destruct (k =? mat); [|exact IH]. cbn [map snd]. now rewrite IH.
Qed.
Lemma tape_range T mat l : tape_material T mat = Val l <-> tape_has T mat = true /\ l = mmrange mat (tt_mats T).
Proof. unfold tape_material. destruct (tape_has T mat); split; try discriminate; [intros K; injection K as <-; auto|intros (_ & ->); reflexivity|intros (K & _); discriminate]. Qed.
Lemma in_range (T : ttape) k x : In (k, x) (tt_mats T) -> exists l, tape_material T k = Val l /\ In x l.
Proof.
  intros I. assert (J : In x (mmrange k (tt_mats T))) by (unfold mmrange; apply in_map_iff; exists (k, x); split; [reflexivity|]; apply filter_In; split; [exact I|cbn; lia]).
  exists (mmrange k (tt_mats T)). split; [|exact J]. apply tape_range. split; [|reflexivity]. unfold tape_has, tape_number. destruct (mmrange k (tt_mats T)); [destruct J|]. cbn [List.length]. lia.
Qed.
Definition all_good (T : ttape) : Prop := forall mat l x, tape_material T mat = Val l -> In x l -> ready x /\ all_signed x.
(** a tape of signed sections parses before clean() exactly when it does afterwards, to the same sections under the same numbers *)
Theorem C75_cleaned_tape : forall T i, made_tape T -> tt_tpid T = Some i -> (List.length (tptext i) <= 66)%nat -> noLF (tptext i) -> 0 < len (tt_mats T) < 2 ^ 31 ->
  all_good T ->
  snd (tape_clean T) = None
  /\ ((exists y, tape_parse T = Val y) <-> exists y, tape_parse (fst (tape_clean T)) = Val y)
  /\ forall y y', tape_parse T = Val y -> tape_parse (fst (tape_clean T)) = Val y' ->
       yt_id y = yt_id y' /\ forall mat, ytape_has y mat = ytape_has y' mat /\ Forall2 same_material_seen (ytape_material y mat) (ytape_material y' mat).
Proof.
  intros T i M Ti Li Ni Hn G. assert (W := made_tape_wf T M). destruct W as (_ & Wf). rewrite Forall_forall in Wf.
  assert (Gi : forall p, In p (tt_mats T) -> wfm (snd p) /\ ready (snd p) /\ all_signed (snd p)).
  { intros [k x] Ip. destruct (in_range T k x Ip) as (l & A & B). cbn [snd]. split; [apply (Wf _ Ip)|exact (G _ _ _ A B)]. }
  assert (E : tape_clean T = (mkttape (tt_tpid T) (cleaned (tt_mats T)), None)).
  { unfold tape_clean. rewrite clean_all_ok; [reflexivity|]. apply Forall_forall. intros p Ip. destruct (Gi p Ip) as (A & _ & B). apply (clean_sees _ A B). }
  assert (M' := mt_clean T M). rewrite E in *. cbn [fst snd] in *. split; [reflexivity|]. set (T' := mkttape (tt_tpid T) (cleaned (tt_mats T))) in *.
  assert (R' : forall mat, mmrange mat (tt_mats T') = map (fun x => fst (mat_clean x)) (mmrange mat (tt_mats T))) by (intros mat; apply cleaned_range).
  assert (N' : forall mat, tape_number T' mat = tape_number T mat) by (intros mat; unfold tape_number; now rewrite R', map_length).
  assert (H' : forall mat, tape_has T' mat = tape_has T mat) by (intros mat; unfold tape_has; now rewrite N').
  assert (V' : forall mat l', tape_material T' mat = Val l' <-> exists l, tape_material T mat = Val l /\ l' = map (fun x => fst (mat_clean x)) l).
  { intros mat l'. rewrite tape_range, H', R'. split; [intros (A & ->); eexists; split; [|reflexivity]; apply tape_range; auto|intros (l & A & ->); apply tape_range in A; destruct A as (A & ->); auto]. }
  assert (Wm : forall mat l x, tape_material T mat = Val l -> In x l -> wfm x /\ ready x /\ all_signed x).
  { intros mat l x A B. apply tape_range in A. destruct A as (_ & ->). unfold mmrange in B. apply in_map_iff in B. destruct B as (p & <- & B). apply filter_In in B. apply Gi, B. }
  assert (Rd' : forall mat l x, tape_material T' mat = Val l -> In x l -> ready x).
  { intros mat l' x' A B. apply V' in A. destruct A as (l & A & ->). apply in_map_iff in B. destruct B as (x & <- & B). destruct (Wm _ _ _ A B) as (A1 & A2 & A3). now apply clean_ready. }
  assert (Hn' : 0 < len (tt_mats T') < 2 ^ 31) by (unfold T', cleaned; cbn [tt_mats]; unfold len in *; rewrite map_length; exact Hn).
  destruct (C66_tape T i M Ti Li Ni Hn (fun mat l x A B => proj1 (proj2 (Wm mat l x A B)))) as (A1 & A2).
  destruct (C66_tape T' i M' Ti Li Ni Hn' Rd') as (B1 & B2). split.
  - rewrite A1, B1. split.
    + intros K mat l' x' mf mt s Kl Kx Ks. apply V' in Kl. destruct Kl as (l & Kl & ->). apply in_map_iff in Kx. destruct Kx as (x & <- & Kx).
      destruct (Wm _ _ _ Kl Kx) as (Q1 & _ & Q3). apply (proj2 (proj1 (clean_parsed x Q1 Q3))) with (mf := mf) (mt := mt) (s := s); [|exact Ks]. intros a b u. exact (K mat l x a b u Kl Kx).
    + intros K mat l x mf mt s Kl Kx Ks. destruct (Wm _ _ _ Kl Kx) as (Q1 & _ & Q3).
      apply (proj1 (proj1 (clean_parsed x Q1 Q3))) with (mf := mf) (mt := mt) (s := s); [|exact Ks].
      intros a b u. apply (K mat (map (fun x => fst (mat_clean x)) l) (fst (mat_clean x)) a b u); [apply V'; eauto|apply in_map_iff; eauto].
  - intros y y' Ky Ky'. destruct (A2 y Ky) as (A3 & A4). destruct (B2 y' Ky') as (B3 & B4). split; [congruence|]. intros mat.
    destruct (A4 mat) as (C1 & C2 & C3). destruct (B4 mat) as (D1 & D2 & D3). rewrite H' in D1, D3. split; [congruence|]. destruct (tape_has T mat) eqn:Q.
    + destruct (C3 eq_refl) as (l & El & F). destruct (D3 eq_refl) as (l' & El' & F'). apply V' in El'. destruct El' as (l0 & El0 & ->). rewrite El in El0. injection El0 as <-.
      assert (Wl : forall x, In x l -> wfm x /\ all_signed x) by (intros x Ix; destruct (Wm _ _ _ El Ix) as (? & _ & ?); auto). clear - F F' Wl. revert F'. generalize (ytape_material y' mat). revert Wl.
      induction F as [|x u l ul Hx F IH]; intros Wl ul' F'; inversion F' as [|? u' ? ul0 Hx' F0]; subst; [constructor|]. constructor.
      * destruct (Wl x (or_introl eq_refl)). apply (same_seen x); auto.
      * apply IH; auto. intros z Iz. apply Wl. now right.
    + rewrite N' in D2. assert (Z0 : tape_number T mat = 0) by (unfold tape_has in Q; lia). unfold len in *. destruct (ytape_material y mat); [|cbn [List.length] in *; lia]. destruct (ytape_material y' mat); [constructor|cbn [List.length] in *; lia].
Qed.

(** ** a tape of which the section has no trailing blanks, numbers at the wrong end of their columns, and zeros in its SEND line *)
From Verif Require Import PropPadTree PropCut2 ExKit.
From Coq Require Import String.
Notation length := List.length.
Definition zeros : text := PropTree2.txt " 0.000000+0 0.000000+0          0          0          0          09228 3  099999"%string.
Definition ex_z : tsec := mktsec 9228 3 1 (lines_text (map messy (firstn 4 cut_f3) ++ [zeros])).
Definition ex_m : tmat := mktmat 9228 [(3, mktfile 9228 3 [(1, ex_z)])].
Lemma ex_head : head_line 9228 3 1 (messy (nth 0 cut_f3 [])).
Proof.
  split; [lia|]. split; [lia|]. split; [lia|].
  assert (K : match rd_sdiv (mkst (messy (nth 0 cut_f3 []) ++ [LF]) 0) with Ok d _ => (smat d =? 9228) && (smf d =? 3) && (smt d =? 1) | _ => false end = true) by (vm_compute; reflexivity).
  destruct (rd_sdiv _) as [d s| |] eqn:E; try discriminate K. exists d. split; [|lia]. apply sdiv_here in E. destruct E as (E & _).
  unfold nth_line in E. rewrite next_line_app in E; [exact E|]. apply (Forall_inv (no_lf_ok [messy (nth 0 cut_f3 [])] eq_refl)).
Qed.
Lemma ex_signed : signed ex_z /\ section_text ex_z /\ long_end (ts_text ex_z).
Proof.
  set (h := messy (nth 0 cut_f3 [])). set (b := map messy (firstn 3 (skipn 1 cut_f3))).
  assert (E : ts_text ex_z = lines_text (h :: b ++ [zeros])) by (vm_compute; reflexivity).
  assert (N : Forall noLF (h :: b ++ [zeros])) by (apply no_lf_ok; vm_compute; reflexivity).
  assert (C : Forall (carries 9228 3 1) (h :: b)) by (repeat (constructor; [split; [|split]; vm_compute; reflexivity|]); constructor).
  split; [|split].
  - exists h, b, zeros. cbn [ex_z ts_mat ts_mf ts_mt]. split; [exact E|]. split; [exact ex_head|]. split; [lia|]. split; [lia|]. split; [split; reflexivity|]. split; [exact N|]. split; [exact C|]. split; [vm_compute; reflexivity|]. split; [discriminate|].
    assert (K : match rd_SEND 9228 3 (mkst (lines_text [zeros]) 1) with Ok _ _ => true | _ => false end = true) by (vm_compute; reflexivity).
    destruct (rd_SEND 9228 3 _) as [u r| |]; try discriminate K. eauto.
  - exists h, b, zeros. split; [exact E|]. split; [exact ex_head|]. split; [|split; [|exact N]].
    + apply Forall_inv_tail in C. eapply Forall_impl; [|exact C]. cbv beta. intros l Hl. exists 9228, 3, 1. split; [exact Hl|lia].
    + exists 9228, 3. split; [|split]; vm_compute; reflexivity.
  - exists (lines_text (h :: b)), zeros. split; [vm_compute; reflexivity|]. split; [now apply Forall_inv_tail, Forall_app in N; destruct N as (_ & N); inversion N|]. vm_compute. lia.
Qed.
Example C75_example_cleaned_tape : made_tape (ex_T ex_z) /\ all_good (ex_T ex_z)
  /\ tape_content (fst (tape_clean (ex_T ex_z))) <> tape_content (ex_T ex_z)
  /\ tape_parse (ex_T ex_z) = Val ex_Y /\ tape_parse (fst (tape_clean (ex_T ex_z))) = Val ex_Y.
Proof.
  split; [|split; [|split; [|split]]].
  - change (ex_T ex_z) with (tape_insert ex_m (mkttape (Some (mktpid (PropTree2.txt "a tape"%string) 0)) [])). apply mt_insert; [|constructor].
    change ex_m with (fst (mop_run (InsertSection ex_z) (mktmat 9228 []))). apply mm_op; [exact Logic.I|constructor].
  - destruct ex_signed as (S1 & S2 & S3). intros mat l x El Ix. unfold tape_material, tape_has, tape_number, ex_T in El. cbn [tt_mats mmrange filter map fst snd] in El. unfold mmrange in El. cbn [filter map fst snd] in El.
    destruct (9228 =? mat); [|discriminate El]. cbn [map snd length] in El. injection El as <-. destruct Ix as [<-|[]]. fold ex_m.
    assert (U : forall a c u, mat_section ex_m a c = Val u -> a = 3 /\ c = 1 /\ u = ex_z).
    { intros a c u. unfold mat_section, mat_file, file_section, at_, ex_m. cbn [tm_files mfind]. destruct (Z.eqb_spec a 3) as [->|]; [|discriminate]. cbn [obind tf_secs mfind]. destruct (Z.eqb_spec c 1) as [->|]; [|discriminate]. intros K. injection K as <-. auto. }
    split; [|intros a c u K; destruct (U _ _ _ K) as (_ & _ & ->); exact S1].
    split; [cbn; lia|]. split; [exists 3, 1; reflexivity|]. split.
    + intros a c u K. destruct (U _ _ _ K) as (-> & _ & ->). split; [reflexivity|]. split; [exact S2|]. split; [lia|]. intros _. exact S3.
    + intros n K _. discriminate K.
  - vm_compute. discriminate.
  - vm_compute. reflexivity.
  - vm_compute. reflexivity.
Qed.
