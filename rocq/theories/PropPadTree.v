(** PropPadTree.v -- C75, continued: clean() on a file, a material or a tape keeps what it
    says.  [plain] describes the sections: lines of at least 66 columns that carry the numbers
    of the section, and a SEND line. *)
From Coq Require Import String.
From Verif Require Import Base Disco DiscoProofs Records Tree Typed Classes PropClasses TreeSpec TreeGrammar PropTree PropTree2 PropClean Parse PropPad PropCut2 LineFacts Spec PropCut Sections Sec1 Sec1Proofs SecSpec PropRecords ExKit.
Open Scope Z_scope.

Definition plain (s : tsec) : Prop := exists ls e,
  ts_text s = lines_text (ls ++ [e]) /\ 0 < ts_mat s < 10000 /\ 0 < ts_mf s < 100 /\ in_cols 3 (ts_mt s)
  /\ Forall noLF (ls ++ [e]) /\ Forall (fun l => (66 <= length l)%nat) (ls ++ [e])
  /\ Forall (carries (ts_mat s) (ts_mf s) (ts_mt s)) ls /\ Z.of_nat (length ls) < 2 ^ 31
  /\ firstn 66 e = blanks 66 /\ carries (ts_mat s) (ts_mf s) 0 e.

(** two outcomes of content(): texts of lines that say the same, or the same exception *)
Definition twin (p p' : pout) : Prop :=
  match p, p' with
  | Val t, Val t' => exists L L', t = lines_text L /\ t' = lines_text L' /\ like_lines true L L'
  | Throw e, Throw e' => e = e'
  | Undef, Undef => True
  | _, _ => False
  end.
Lemma like_app L1 L1' L2 L2' : like_lines true L1 L1' -> like_lines true L2 L2' -> like_lines true (L1 ++ L2) (L1' ++ L2').
Proof.
  intros (A1 & A2 & A3 & A4) (B1 & B2 & B3 & B4). destruct (A4 eq_refl) as (A5 & A6), (B4 eq_refl) as (B5 & B6).
  split; [apply Forall_app; auto|]. split; [apply Forall_app; auto|]. split; [apply Forall2_app; auto|]. intros _. split; apply Forall_app; auto.
Qed.
Lemma like_self L : Forall noLF L -> Forall (fun l => (66 <= length l)%nat) L -> like_lines true L L.
Proof.
  intros N H. split; [exact N|]. split; [exact N|]. split; [|auto]. clear. induction L as [|l L IH]; constructor; [repeat split|exact IH].
Qed.
Lemma like_nil : like_lines true [] []. Proof. apply like_self; constructor. Qed.
Lemma twin_cat p p' q q' : twin p p' -> twin q q' -> twin (p +++ q) (p' +++ q').
Proof.
  destruct p as [t|e|], p' as [t'|e'|]; cbn; intros H1 H2; try contradiction; try exact H1.
  destruct H1 as (L & L' & -> & -> & HL). destruct q as [u|e|], q' as [u'|e'|]; cbn in *; try contradiction; try exact H2.
  destruct H2 as (K & K' & -> & -> & HK). exists (L ++ K), (L' ++ K'). rewrite !lines_app. split; [reflexivity|]. split; [reflexivity|]. now apply like_app.
Qed.
Lemma twin_oconcat {A} (f : A -> pout) l l' : Forall2 (fun a b => twin (f a) (f b)) l l' -> twin (oconcat f l) (oconcat f l').
Proof. intros H. unfold oconcat. induction H as [|a b l l' Hab H IH]; cbn [fold_right]; [exists [], []; split; [reflexivity|]; split; [reflexivity|apply like_nil]|]. now apply twin_cat. Qed.
Lemma twin_close b b' f : twin b b' -> twin f f -> twin (close b f) (close b' f).
Proof.
  unfold close. destruct b as [t|e|], b' as [t'|e'|]; cbn; intros H1 H2; try contradiction; try exact H1.
  destruct H1 as (L & L' & -> & -> & HL). destruct L as [|l L].
  { destruct HL as (_ & _ & F & _). inversion F; subst. exists [], []. split; [reflexivity|]. split; [reflexivity|apply like_nil]. }
  destruct L' as [|l' L']; [destruct HL as (_ & _ & F & _); inversion F|].
  assert (W : forall (x : text) X (o : pout), match lines_text (x :: X) with [] => Val [] | _ => obind o (fun e => Val (lines_text (x :: X) ++ e)) end = obind o (fun e => Val (lines_text (x :: X) ++ e))).
  { intros x X o. destruct (lines_text (x :: X)) eqn:E; [|reflexivity]. apply (f_equal (@List.length _)) in E. unfold lines_text in E. cbn [flat_map] in E. rewrite !app_length in E. cbn [length] in E. exfalso. clear -E. lia. }
  rewrite !W. exact (twin_cat (Val (lines_text (l :: L))) (Val (lines_text (l' :: L'))) f f (ex_intro _ (l :: L) (ex_intro _ (l' :: L') (conj eq_refl (conj eq_refl HL)))) H2).
Qed.
Lemma twin_line l : noLF l -> (66 <= length l)%nat -> twin (Val (l ++ [LF])) (Val (l ++ [LF])).
Proof. intros N H. exists [l], [l]. unfold lines_text. cbn [flat_map]. rewrite app_nil_r. split; [reflexivity|]. split; [reflexivity|]. apply like_self; repeat constructor; auto. Qed.
Lemma rj_noLF w t : noLF t -> noLF (rj w t).
Proof. intros H. unfold rj. apply noLF_app. split; [apply noLF_blanks|exact H]. Qed.
Lemma end_twin m f t : twin (Val (pr_sdiv (mksdiv zero_cont m f t))) (Val (pr_sdiv (mksdiv zero_cont m f t))).
Proof.
  assert (N : forall w z, noLF (pr_int w z)) by (intros w z; apply rj_noLF, show_noLF).
  unfold pr_sdiv. destruct (is_head _) eqn:E.
  - assert (B : noLF (pr_base zero_cont) /\ (66 <= length (pr_base zero_cont))%nat) by (split; [exact (Forall_inv (PropCut2.no_lf_ok [pr_base zero_cont] eq_refl))|vm_compute; lia]).
    destruct B as (B1 & B2). cbn [sbase smat smf smt]. unfold pr_tail.
    replace (pr_base zero_cont ++ pr_int 4 m ++ pr_int 2 f ++ pr_int 3 t ++ pr_col 5 ++ [LF]) with ((pr_base zero_cont ++ pr_int 4 m ++ pr_int 2 f ++ pr_int 3 t ++ pr_col 5) ++ [LF]) by (rewrite <- !app_assoc; reflexivity).
    apply twin_line; [|rewrite app_length; clear -B2; lia]. rewrite !noLF_app. repeat (split; auto). apply noLF_blanks.
  - cbn [sbase smat smf smt].
    replace (pr_int 70 m ++ pr_int 2 f ++ pr_int 3 t ++ pr_col 5 ++ [LF]) with ((pr_int 70 m ++ pr_int 2 f ++ pr_int 3 t ++ pr_col 5) ++ [LF]) by (rewrite <- !app_assoc; reflexivity).
    apply twin_line; [rewrite !noLF_app; repeat (split; auto); apply noLF_blanks|]. rewrite app_length. unfold pr_int at 1, rj. rewrite app_length, blanks_length. lia.
Qed.
Lemma fend_twin m : twin (pr_FEND m) (pr_FEND m).
Proof. unfold pr_FEND, FEND. destruct (m <? 1); [exact eq_refl|]. apply end_twin. Qed.
Lemma tpid_twin i : noLF (tptext i) -> twin (Val (pr_tpid i 0 0 0)) (Val (pr_tpid i 0 0 0)).
Proof.
  intros N. unfold pr_tpid, pr_tail.
  replace (lj 66 (tptext i) ++ pr_int 4 0 ++ pr_int 2 0 ++ pr_int 3 0 ++ pr_col 5 ++ [LF]) with ((lj 66 (tptext i) ++ pr_int 4 0 ++ pr_int 2 0 ++ pr_int 3 0 ++ pr_col 5) ++ [LF]) by (rewrite <- !app_assoc; reflexivity).
  apply twin_line.
  - assert (K : forall w z, noLF (pr_int w z)) by (intros w z; apply rj_noLF, show_noLF).
    rewrite !noLF_app. unfold lj. rewrite noLF_app. repeat (split; auto); apply noLF_blanks.
  - rewrite app_length. unfold lj. rewrite app_length, blanks_length. lia.
Qed.

(** a plain section and its cleaned text *)
Lemma plain_clean s : plain s -> snd (sec_clean s) = None
  /\ exists L L', ts_text s = lines_text L /\ ts_text (fst (sec_clean s)) = lines_text L' /\ like_lines true L L'.
Proof.
  intros (ls & e & Et & Hm & Hf & Ht & N & W & C & Hn & B & Ce). destruct s as [mat mf mt t]. cbn [ts_mat ts_mf ts_mt ts_text] in *. subst t.
  rewrite (clean_eq mat mf mt ls e Hm Hf Ht N C Hn). cbn [fst snd ts_text]. split; [reflexivity|].
  assert (Gt : good_tail mat mf mt) by (split; [unfold in_cols; change (10 ^ (4 - 1)) with 1000; change (10^4) with 10000; lia|split; [unfold in_cols; cbn; lia|exact Ht]]).
  assert (G0 : good_tail mat mf 0) by (split; [exact (proj1 Gt)|split; [exact (proj1 (proj2 Gt))|split; reflexivity]]).
  exists (ls ++ [e]), (map (clean_line mat mf mt) ls ++ [canonical_send mat mf]). split; [reflexivity|]. split; [reflexivity|].
  apply Forall_app in N, W. destruct N as [N Ne], W as [W We]. assert (Ne' := Forall_inv Ne). assert (We' := Forall_inv We). cbv beta in We'.
  assert (Len : forall l, (66 <= length (clean_line mat mf mt l))%nat). { intros l. unfold clean_line. rewrite app_length, (lj_len 66 _ (col_le 0 66 l)). lia. }
  apply like_app.
  - split; [exact N|]. split; [|split].
    + apply Forall_map. eapply Forall_impl; [|exact N]. cbv beta. intros l Nl. apply (clean_line_ok mat mf mt l Gt Nl).
    + clear -C Gt. induction C as [|l ls Cl C IH]; cbn [map]; constructor; [now apply clean_fields|exact IH].
    + intros _. split; [exact W|]. apply Forall_map, Forall_forall. intros l _. apply Len.
  - assert (Ec : canonical_send mat mf = clean_line mat mf 0 e).
    { unfold canonical_send, clean_line. f_equal. unfold col. change (skipn 0 e) with e. rewrite B. reflexivity. }
    rewrite Ec. split; [exact Ne|]. split; [|split].
    + constructor; [|constructor]. apply (clean_line_ok mat mf 0 e G0 Ne').
    + constructor; [|constructor]. now apply clean_fields.
    + intros _. split; [exact We|]. constructor; [|constructor]. unfold clean_line. rewrite app_length, (lj_len 66 _ (col_le 0 66 e)). lia.
Qed.

Lemma twin_run {A} (p : M A) : (forall L L', like_lines true L L' -> like (p (mkst (lines_text L) 1)) (p (mkst (lines_text L') 1))) ->
  forall c c', twin c c' -> obind c' (fun t => run p t 1) = obind c (fun t => run p t 1).
Proof.
  intros H c c' T. destruct c as [t|e|], c' as [t'|e'|]; cbn in *; try contradiction; try congruence.
  destruct T as (L & L' & -> & -> & HL). specialize (H L L' HL). unfold run.
  destruct (p (mkst (lines_text L) 1)) as [a s|e s|], (p (mkst (lines_text L') 1)) as [a' s'|e' s'|]; cbn in *; try contradiction; try reflexivity; destruct H; congruence.
Qed.

Definition plain_file (f : tfile) : Prop := Forall (fun ps => plain (snd ps)) (tf_secs f).
Definition plain_mat (m : tmat) : Prop := Forall (fun pf => plain_file (snd pf)) (tm_files m).
Lemma file_clean_eq f : plain_file f -> file_clean f = (mktfile (tf_mat f) (tf_mf f) (map (fun ps => (fst ps, fst (sec_clean (snd ps)))) (tf_secs f)), None).
Proof. intros H. unfold file_clean. rewrite clean_all_ok; [reflexivity|]. eapply Forall_impl; [|exact H]. cbv beta. intros p Hp. apply (plain_clean _ Hp). Qed.
Lemma mat_clean_eq m : plain_mat m -> mat_clean m = (mktmat (tm_mat m) (map (fun pf => (fst pf, fst (file_clean (snd pf)))) (tm_files m)), None).
Proof. intros H. unfold mat_clean. rewrite clean_all_ok; [reflexivity|]. eapply Forall_impl; [|exact H]. cbv beta. intros p Hp. now rewrite (file_clean_eq _ Hp). Qed.
Lemma file_twin f : plain_file f -> twin (file_content f) (file_content (fst (file_clean f))).
Proof.
  intros H. rewrite (file_clean_eq f H). unfold file_content. cbn [fst tf_mat tf_secs]. apply twin_close; [|apply fend_twin].
  unfold plain_file in H. induction H as [|p l Hp H IH]; cbn [map flat_map]; [exists [], []; split; [reflexivity|]; split; [reflexivity|apply like_nil]|].
  destruct IH as (L & L' & E & E' & HL). destruct (plain_clean _ Hp) as (_ & K & K' & F & F' & HK). cbn [snd].
  exists (K ++ L), (K' ++ L'). rewrite !lines_app, <- E, <- E', <- F, <- F'. split; [reflexivity|]. split; [reflexivity|]. now apply like_app.
Qed.
Lemma twin_map {A} (f : A -> pout) (g : Z * A -> Z * A) l : Forall (fun p => twin (f (snd p)) (f (snd (g p)))) l ->
  twin (oconcat (fun p => f (snd p)) l) (oconcat (fun p => f (snd p)) (map g l)).
Proof. intros H. apply twin_oconcat. induction H as [|p l Hp H IH]; cbn [map]; constructor; auto. Qed.
Lemma mat_twin m : plain_mat m -> twin (mat_content m) (mat_content (fst (mat_clean m))).
Proof.
  intros H. rewrite (mat_clean_eq m H). unfold mat_content. cbn [fst tm_mat tm_files]. apply twin_close; [|apply end_twin].
  apply twin_map. eapply Forall_impl; [|exact H]. cbv beta. intros p Hp. cbn [snd]. now apply file_twin.
Qed.

(** ** C75 for clean() of a file, a material, a tape *)
Theorem C75_clean_file : forall mf f, plain_file f -> snd (file_clean f) = None
  /\ file_parse skind_of lib_class mf (fst (file_clean f)) = file_parse skind_of lib_class mf f.
Proof.
  intros mf f H. split; [now rewrite (file_clean_eq f H)|]. unfold file_parse.
  apply (twin_run (parse_yfile skind_of lib_class mf)); [intros L L' K; now apply C75_file|now apply file_twin].
Qed.
Theorem C75_clean_material : forall m, plain_mat m -> snd (mat_clean m) = None
  /\ mat_parse skind_of lib_class (fst (mat_clean m)) = mat_parse skind_of lib_class m.
Proof.
  intros m H. split; [now rewrite (mat_clean_eq m H)|]. unfold mat_parse.
  apply (twin_run (parse_ymat skind_of lib_class)); [intros L L' K; now apply C75_material|now apply mat_twin].
Qed.
Theorem C75_clean_tape : forall T, all_sections plain T -> (forall i, tt_tpid T = Some i -> noLF (tptext i)) ->
  snd (tape_clean T) = None /\ tape_parse (fst (tape_clean T)) = tape_parse T.
Proof.
  intros T H N. change (Forall (fun pm => plain_mat (snd pm)) (tt_mats T)) in H.
  assert (E : tape_clean T = (mkttape (tt_tpid T) (map (fun pm => (fst pm, fst (mat_clean (snd pm)))) (tt_mats T)), None)).
  { unfold tape_clean. rewrite clean_all_ok; [reflexivity|]. eapply Forall_impl; [|exact H]. cbv beta. intros p Hp. now rewrite (mat_clean_eq _ Hp). }
  rewrite E. split; [reflexivity|]. unfold tape_parse.
  apply (twin_run (rd_ytape skind_of lib_class)); [intros L L' K; now apply C75_tape|].
  unfold tape_content. cbn [fst tt_tpid tt_mats]. apply twin_close; [|apply end_twin]. apply twin_cat.
  - destruct (tt_tpid T) as [i|]; [apply tpid_twin, N; reflexivity|]. exists [], []. split; [reflexivity|]. split; [reflexivity|apply like_nil].
  - apply twin_map. eapply Forall_impl; [|exact H]. cbv beta. intros p Hp. cbn [snd]. now apply mat_twin.
Qed.
(** a tape of which the section has no trailing blanks and numbers at the wrong end of their columns *)
Definition ex_T (s : tsec) : ttape := mkttape (Some (mktpid (PropTree2.txt "a tape"%string) 0)) [(9228, mktmat 9228 [(3, mktfile 9228 3 [(1, s)])])].
Definition ex_Y : ytape := mkytape (mktpid (lj 66 (PropTree2.txt "a tape"%string)) 0) [mkymat 9228 [(3, mkyfile 3 [(1, ex_3 1)])]].
Example C75_example_clean_tape : all_sections plain (ex_T ex_s)
  /\ tape_content (fst (tape_clean (ex_T ex_s))) <> tape_content (ex_T ex_s)
  /\ tape_parse (ex_T ex_s) = Val ex_Y /\ tape_parse (fst (tape_clean (ex_T ex_s))) = Val ex_Y.
Proof.
  assert (P : all_sections plain (ex_T ex_s)).
  { constructor; [|constructor]. constructor; [|constructor]. constructor; [|constructor]. cbn [snd].
    exists (map messy (firstn 4 cut_f3)), (messy (nth 4 cut_f3 [])). split; [reflexivity|]. split; [cbn; lia|]. split; [cbn; lia|]. split; [split; reflexivity|].
    split; [apply PropCut2.no_lf_ok; vm_compute; reflexivity|]. split.
    { assert (K : forallb (fun l => (66 <=? length l)%nat) (map messy (firstn 4 cut_f3) ++ [messy (nth 4 cut_f3 [])]) = true) by (vm_compute; reflexivity).
      apply Forall_forall. rewrite forallb_forall in K. intros l Hl. specialize (K l Hl). cbv beta in K. lia. }
    split; [repeat (constructor; [split; [|split]; vm_compute; reflexivity|]); constructor|]. split; [reflexivity|]. split; [vm_compute; reflexivity|].
    split; [|split]; vm_compute; reflexivity. }
  assert (E : tape_parse (ex_T ex_s) = Val ex_Y) by (vm_compute; reflexivity).
  split; [exact P|]. split; [vm_compute; discriminate|]. split; [exact E|]. rewrite <- E. apply C75_clean_tape; [exact P|].
  intros i H. injection H as <-. vm_compute. intuition discriminate.
Qed.
(** a section without its SEND line makes the tape unreadable; clean() replaces its last line, whatever it is *)
Theorem C75_clean_refuted : exists s, snd (tape_clean (ex_T s)) = None /\ tape_parse (ex_T s) = Throw EStd
  /\ tape_parse (fst (tape_clean (ex_T s))) = Val ex_Y.
Proof.
  exists (mktsec 9228 3 1 (lines_text (firstn 4 cut_f3 ++ [nth 1 cut_f3 []]))).
  split; [vm_compute; reflexivity|]. split; vm_compute; reflexivity.
Qed.
