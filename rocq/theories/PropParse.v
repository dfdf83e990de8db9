(** PropParse.v -- C66: parsing a whole tree, whatever its history. *)
From Coq Require Import ZifyBool ZifyNat.
From Verif Require Import Base Disco Records RecordProofs PropSec451 Spec LineFacts Sections SecSpec SectionProofs Tree TreeSpec TreeProofs TreeGrammar TreeMaps PropTree PropTree2 EditSpec PropEdit
  Typed TypedSpec TypedProofs PropTyped PropAgree Classes PropClasses PropAgree2 Parse.
Open Scope Z_scope.

(** ** specification *)
(** the text of a section: a HEAD line with its numbers, lines with MT /= 0 and a last line with MT = 0 *)
Definition section_text (s : tsec) : Prop := exists head body last,
  ts_text s = lines_text (head :: body ++ [last]) /\ head_line (ts_mat s) (ts_mf s) (ts_mt s) head
  /\ Forall body_line body /\ last_line last /\ Forall noLF (head :: body ++ [last]).
(** a material that can be written: a number of at most four digits, at least one section, no section with another MAT number; and
    none of the files whose reader has its own ways: 30, and a file 8 whose first section is not one of the library's;
    a section of file 32 ends with a line of at least 66 columns *)
Definition long_end (t : text) : Prop := exists before last, t = before ++ last ++ [LF] /\ noLF last /\ (66 <= length last)%nat.
Definition ready (x : tmat) : Prop :=
  0 < tm_mat x < 10000
  /\ (exists mf mt, mat_hasMFMT x mf mt = true)
  /\ (forall mf mt s, mat_section x mf mt = Val s -> ts_mat s = tm_mat x /\ section_text s /\ mf <> 30 /\ (mf = 32 -> long_end (ts_text s)))
  /\ (forall n, mat_hasMFMT x 8 n = true -> (forall mt, mat_hasMFMT x 8 mt = true -> n <= mt) -> n = 454 \/ n = 457 \/ n = 459).
(** a material that can be saved: any files *)
Definition savable (x : tmat) : Prop :=
  0 < tm_mat x < 10000
  /\ (exists mf mt, mat_hasMFMT x mf mt = true)
  /\ forall mf mt s, mat_section x mf mt = Val s -> ts_mat s = tm_mat x /\ section_text s.
Lemma ready_savable x : ready x -> savable x.
Proof. intros (A & B & C & _). split; [exact A|]. split; [exact B|]. intros mf mt s E. destruct (C mf mt s E) as (K1 & K2 & _). auto. Qed.
(** the typed material has the sections of the tree, each the one obtained by parsing it alone; it has no empty file *)
Definition same_sections (x : tmat) (y : ymat) : Prop :=
  tm_mat x = ym_mat y
  /\ (forall mf, ymat_hasMF y mf = true <-> exists mt, mat_hasMFMT x mf mt = true)
  /\ (forall mf mt, mat_hasMFMT x mf mt = ymat_hasMFMT y mf mt)
  /\ (forall mf mt v, ymat_section y mf mt = Val v <-> exists s, mat_section x mf mt = Val s /\ parsed_as s v).

(** ** a source for the content *)
Lemma sec_source s : section_text s -> exists e, sec_ok e /\ sec_entry e = (ts_mt s, s) /\ x_sends e = [].
Proof.
  intros (h & b & l & E & Hh & Hb & Hl & N). exists (mkss (ts_mat s) (ts_mf s) (ts_mt s) h b l []). split; [|split; [|reflexivity]].
  - split; [exact Hh|]. split; [exact Hb|]. split; [exact Hl|]. split; [constructor|]. unfold sec_all, sec_lines. cbn [x_head x_body x_last x_sends]. rewrite app_nil_r. exact N.
  - unfold sec_entry, sec_tree, sec_lines. cbn [x_mt x_mat x_mf x_head x_body x_last]. rewrite <- E. destruct s; reflexivity.
Qed.
Lemma F2_map {A B} (g : B -> A) l r : Forall2 (fun a b => g b = a) l r -> map g r = l.
Proof. induction 1; cbn; congruence. Qed.
Lemma file_source f : wff f -> tf_secs f <> [] -> 0 < tf_mat f < 10000 -> (forall k s, In (k, s) (tf_secs f) -> ts_mat s = tf_mat f /\ section_text s) ->
  exists e, file_ok e /\ canonical_file e /\ file_tree e = f /\ map sec_entry (x_secs e) = tf_secs f.
Proof.
  intros (Ha & Hk) Ne Hm Hs. destruct (list_ex (fun p e => (sec_ok e /\ x_sends e = []) /\ sec_entry e = p) (tf_secs f)) as (es & F).
  { rewrite Forall_forall in *. intros [k s] I. destruct (Hk _ I) as (K & _). cbn [fst snd] in K. destruct (sec_source s (proj2 (Hs k s I))) as (e & O & E & X). exists e. rewrite E, K. auto. }
  assert (M : map sec_entry es = tf_secs f) by (apply F2_map; clear - F; induction F as [|p e l r H _ IH]; constructor; tauto).
  assert (O : Forall (fun e => sec_ok e /\ x_sends e = []) es) by (clear - F; induction F as [|p e l r H _ IH]; constructor; tauto).
  assert (Ids : Forall (fun e => x_mat e = tf_mat f /\ x_mf e = tf_mf f) es).
  { apply Forall_forall. intros e I. assert (J : In (sec_entry e) (tf_secs f)) by (rewrite <- M; now apply in_map). rewrite Forall_forall in Hk. destruct (Hk _ J) as (_ & K). destruct (Hs _ _ J) as (K' & _). split; [exact K'|exact K]. }
  destruct es as [|e0 es]; [destruct (tf_secs f); [congruence|discriminate M]|].
  set (src := mkfs (e0 :: es) [canonical_end (tf_mat f)]). assert (E0 : x_mat e0 = tf_mat f /\ x_mf e0 = tf_mf f) by (inversion Ids; assumption). destruct E0 as (E1 & E2).
  assert (Keys : map x_mt (e0 :: es) = map fst (tf_secs f)) by (rewrite <- M, map_map; reflexivity).
  exists src. assert (In4 : in_cols 4 (tf_mat f)) by (unfold in_cols; cbn; lia). split; [|split; [|split]].
  - split; [discriminate|]. split; [apply Forall_forall; rewrite Forall_forall in O; intros e I; apply (O e I)|].
    split; [unfold f_mf, src; cbn [x_secs hd]; rewrite E2; rewrite Forall_forall in *; intros e I; apply (Ids e I)|].
    split; [cbn [x_secs src]; rewrite Keys; now apply strict_NoDup|]. split; [|constructor; [now apply canon_noLF|constructor]].
    constructor; [|constructor]. exists (mksdiv zero_cont (tf_mat f) 0 0). split; [apply canon_div; [exact In4|lia]|]. cbn. repeat split; lia.
  - split; [apply Forall_forall; rewrite Forall_forall in O; intros e I; apply (O e I)|]. unfold f_mat, src. cbn [x_secs x_fends hd]. rewrite E1. split; [reflexivity|].
    split; [rewrite Keys; exact Ha|exact Hm].
  - unfold file_tree, f_mat, f_mf, src. cbn [x_secs hd]. rewrite E1, E2, M. rewrite fold_place_asc by (cbn [app]; exact Ha). destruct f; reflexivity.
  - exact M.
Qed.
(** empty files are not written *)
Definition full (p : Z * tfile) : bool := match tf_secs (snd p) with [] => false | _ => true end.
Definition prune (x : tmat) : tmat := mktmat (tm_mat x) (filter full (tm_files x)).
Lemma strict_filter_fst {A} (p : Z * A -> bool) l : ascending Z.lt (map fst l) -> ascending Z.lt (map fst (filter p l)).
Proof.
  induction l as [|a l IH]; [exact (fun H => H)|]. intros H. cbn [map] in H. apply strict_cons in H. destruct H as (Ha & H). cbn [filter]. destruct (p a); [|exact (IH H)].
  cbn [map]. apply strict_cons. split; [|exact (IH H)]. rewrite Forall_forall in *. intros k I. apply Ha. apply in_map_iff in I. destruct I as (b & <- & I). apply filter_In in I. now apply in_map.
Qed.
Lemma mfind_filter {A} (p : Z * A -> bool) l k : ascending Z.lt (map fst l) ->
  mfind k (filter p l) = match mfind k l with Some v => if p (k, v) then Some v else None | None => None end.
Proof.
  induction l as [|[a v] l IH]; [reflexivity|]. intros H. cbn [map fst] in H. apply strict_cons in H. destruct H as (Ha & H). cbn [filter mfind].
  destruct (p (a, v)) eqn:E; cbn [mfind]; destruct (Z.eqb_spec k a) as [->|N]; auto.
  - now rewrite E.
  - rewrite E. rewrite IH by exact H. replace (mfind a l) with (@None A); [reflexivity|]. symmetry. apply mfind_None. intros I. rewrite Forall_forall in Ha. specialize (Ha a I). lia.
Qed.
Lemma prune_wf x : wfm x -> wfm (prune x).
Proof. intros (Ha & Hf). split; [apply strict_filter_fst, Ha|]. cbn [prune tm_files tm_mat]. rewrite Forall_forall in *. intros p I. apply filter_In in I. now apply Hf. Qed.
Lemma prune_content x : mat_content (prune x) = mat_content x.
Proof.
  unfold mat_content, prune. cbn [tm_files]. f_equal. induction (tm_files x) as [|p l IH]; [reflexivity|]. unfold oconcat in *. cbn [filter fold_right]. rewrite <- IH. unfold full at 1.
  destruct (tf_secs (snd p)) eqn:E; [|reflexivity]. replace (file_content (snd p)) with (Val [] : pout) by (unfold file_content; rewrite E; reflexivity).
  destruct (fold_right _ _ _); reflexivity.
Qed.
Lemma prune_section x mf mt : wfm x -> mat_hasMFMT (prune x) mf mt = mat_hasMFMT x mf mt /\ (mat_section (prune x) mf mt = mat_section x mf mt \/ (forall s, mat_section x mf mt <> Val s) /\ forall s, mat_section (prune x) mf mt <> Val s).
Proof.
  intros (Ha & _). unfold mat_hasMFMT, mat_section, mat_file, at_, prune. cbn [tm_files]. rewrite (mfind_filter full _ _ Ha). destruct (mfind mf (tm_files x)) as [f|]; [|split; [reflexivity|left; reflexivity]].
  unfold full. cbn [snd]. unfold file_has, mhas, file_section, at_. destruct (tf_secs f) eqn:E; cbn [obind]; [|rewrite E; split; [reflexivity|left; reflexivity]]. rewrite E. cbn [mfind]. split; [reflexivity|right; split; intros; discriminate].
Qed.
Lemma prune_val x mf mt s : wfm x -> mat_section (prune x) mf mt = Val s <-> mat_section x mf mt = Val s.
Proof. intros W. destruct (prune_section x mf mt W) as (_ & [->|(A & B)]); [reflexivity|]. split; intros K; [destruct (B _ K)|destruct (A _ K)]. Qed.
Lemma section_has x mf mt : (exists s, mat_section x mf mt = Val s) <-> mat_hasMFMT x mf mt = true.
Proof.
  unfold mat_section, mat_hasMFMT, mat_file, file_section, file_has, at_, mhas. destruct (mfind mf (tm_files x)) as [f|]; cbn [obind]; [|split; [intros (s & K); discriminate K|discriminate]].
  destruct (mfind mt (tf_secs f)) as [s|]; split; intros K; eauto; [destruct K; discriminate|discriminate].
Qed.
Lemma strict_find {A} (l : list (Z * A)) k v : ascending Z.lt (map fst l) -> In (k, v) l -> mfind k l = Some v.
Proof.
  induction l as [|[a w] l IH]; [intros _ []|]. intros H I. cbn [map fst] in H. apply strict_cons in H. destruct H as (Ha & H). cbn [mfind]. destruct I as [E|I]; [injection E as -> ->; now rewrite Z.eqb_refl|].
  replace (k =? a) with false; [auto|]. rewrite Forall_forall in Ha. specialize (Ha k ltac:(apply in_map_iff; exists (k, v); auto)). lia.
Qed.
Lemma full_sections x k f j s : wfm x -> In (k, f) (tm_files x) -> In (j, s) (tf_secs f) -> mat_section x k j = Val s.
Proof.
  intros (Ha & Hf) I J. unfold mat_section, mat_file, file_section, at_. rewrite (strict_find _ _ _ Ha I). cbn [obind]. rewrite Forall_forall in Hf. destruct (Hf _ I) as (_ & _ & Wf & _). cbn [snd] in Wf. rewrite (strict_find _ _ _ Wf J). reflexivity.
Qed.
Lemma mat_source x : wfm x -> savable x -> exists e, mat_ok e /\ canonical_mat e /\ mat_tree e = prune x /\ map file_entry (x_files e) = tm_files (prune x).
Proof.
  intros W (Hm & (mf0 & mt0 & H0) & Hs). destruct (prune_wf x W) as (Ha & Hk).
  destruct (list_ex (fun p e => (file_ok e /\ canonical_file e) /\ file_entry e = p) (tm_files (prune x))) as (es & F).
  { rewrite Forall_forall in *. intros [k f] I. destruct (Hk _ I) as (K1 & K2 & Wf). cbn [fst snd prune tm_mat] in *. unfold prune in I. cbn [tm_files] in I. apply filter_In in I. destruct I as (I & Fu). unfold full in Fu. cbn [snd] in Fu.
    destruct (file_source f Wf) as (e & O & C & E & _).
    - intros K. rewrite K in Fu. discriminate.
    - rewrite K2. exact Hm.
    - intros j s J. destruct (Hs k j s (full_sections x k f j s W I J)) as (A & B). split; [congruence|exact B].
    - exists e. split; [auto|]. unfold file_entry. rewrite E. f_equal. rewrite <- K1, <- E. reflexivity. }
  assert (M : map file_entry es = tm_files (prune x)) by (apply F2_map; clear - F; induction F as [|p e l r H _ IH]; constructor; tauto).
  assert (O : Forall (fun e => file_ok e /\ canonical_file e) es) by (clear - F; induction F as [|p e l r H _ IH]; constructor; tauto).
  assert (Ids : Forall (fun e => f_mat e = tm_mat x) es).
  { apply Forall_forall. intros e I. assert (J : In (file_entry e) (tm_files (prune x))) by (rewrite <- M; now apply in_map). rewrite Forall_forall in Hk. destruct (Hk _ J) as (_ & K & _). exact K. }
  destruct es as [|e0 es].
  { exfalso. cbn [map] in M. apply section_has in H0. destruct H0 as (s & H0). apply (prune_val x mf0 mt0 s W) in H0. unfold mat_section, mat_file, at_ in H0. rewrite <- M in H0. discriminate H0. }
  set (src := mkms (e0 :: es) [canonical_end 0]). assert (E0 : f_mat e0 = tm_mat x) by (inversion Ids; assumption).
  assert (Keys : map f_mf (e0 :: es) = map fst (tm_files (prune x))) by (rewrite <- M, map_map; reflexivity).
  exists src. assert (In4 : in_cols 4 0) by (unfold in_cols; cbn; lia). split; [|split; [|split]].
  - split; [discriminate|]. split; [apply Forall_forall; rewrite Forall_forall in O; intros e I; apply (O e I)|].
    split; [unfold m_mat, src; cbn [x_files hd]; rewrite E0; exact Ids|].
    split; [cbn [x_files src]; rewrite Keys; now apply strict_NoDup|]. split; [|constructor; [now apply canon_noLF|constructor]].
    constructor; [|constructor]. exists (mksdiv zero_cont 0 0 0). split; [apply canon_div; [exact In4|lia]|]. cbn. repeat split; lia.
  - split; [apply Forall_forall; rewrite Forall_forall in O; intros e I; apply (O e I)|]. split; [reflexivity|]. cbn [x_files src]. rewrite Keys. exact Ha.
  - unfold mat_tree, m_mat, src. cbn [x_files hd]. rewrite E0, M. rewrite fold_place_asc by (cbn [app]; exact Ha). reflexivity.
  - exact M.
Qed.
Lemma first_least (l : list Z) : ascending Z.lt l -> forall k, In k l -> hd 0 l <= k.
Proof. destruct l as [|a l]; [intros _ k []|]. intros H k [->|I]; cbn [hd]; [lia|]. apply strict_cons in H. destruct H as (H & _). rewrite Forall_forall in H. specialize (H k I). lia. Qed.
Notation plain_mat := (plain_mat sclass sbody skind_of lib_class lib_rep lib_inv).
Notation plain_file := (plain_file sclass sbody skind_of lib_class lib_rep lib_inv).
Lemma long_last ls la : long_end (lines_text (ls ++ [la])) -> noLF la -> (66 <= length la)%nat.
Proof.
  intros (b & l & E & Nl & L) Na. rewrite lines_app, lines_cons' in E. cbn [lines_text flat_map] in E.
  replace (la ++ LF :: lines_text []) with (la ++ [LF]) in E by reflexivity. rewrite !app_assoc in E. apply app_inj_tail in E. destruct E as (E & _).
  destruct (le_lt_dec (length l) (length la)) as [K|K]; [lia|exfalso].
  destruct (@exists_last _ ls) as (ls' & a & ->). { intros ->. cbn in E. apply (f_equal (@length ascii)) in E. rewrite app_length in E. lia. }
  rewrite lines_app, lines_cons' in E. replace (a ++ LF :: lines_text []) with (a ++ [LF]) in E by reflexivity.
  apply (f_equal (@rev ascii)) in E. rewrite !rev_app_distr in E. cbn [rev app] in E.
  assert (Q : rev l = rev la ++ LF :: skipn (length la + 1) (rev l)).
  { assert (F := f_equal (firstn (length la + 1)) E). rewrite firstn_app, rev_length in F. replace (length la + 1 - length la)%nat with 1%nat in F by lia. cbn [firstn] in F.
    rewrite firstn_all2 in F by (rewrite rev_length; lia). rewrite firstn_app, rev_length in F. replace (length la + 1 - length l)%nat with 0%nat in F by lia. cbn [firstn] in F. rewrite app_nil_r in F.
    rewrite <- (firstn_skipn (length la + 1) (rev l)) at 1. rewrite <- F, <- app_assoc. reflexivity. }
  apply Nl. apply in_rev. rewrite Q. apply in_or_app. right. now left.
Qed.
Lemma sec_long s : sec_ok s -> long_end (ts_text (sec_tree s)) -> (66 <= length (x_last s))%nat.
Proof.
  intros (_ & _ & _ & _ & N) L. unfold sec_tree, sec_lines in L. cbn [ts_text] in L. unfold sec_all, sec_lines in N. apply Forall_app in N. destruct N as (N & _).
  apply (long_last (x_head s :: x_body s)); [exact L|]. rewrite Forall_forall in N. apply N. right. apply in_or_app. right. now left.
Qed.
Lemma source_plain e x : wfm x -> ready x -> mat_ok e -> canonical_mat e -> map file_entry (x_files e) = tm_files (prune x) -> plain_mat e.
Proof.
  intros W R O C M. pose proof R as (Hm & _ & Hs & H8). pose proof O as (Ne & Of & Om & _). pose proof C as (Cf & Ce & _). split; [|split].
  - apply Forall_forall. intros f If. rewrite Forall_forall in Of, Cf. pose proof (Of f If) as (Nf & _ & Hmf & _). pose proof (Cf f If) as (Sd & Fe & Asc & _).
    assert (Tf : tf_secs (file_tree f) = map sec_entry (x_secs f)) by (unfold file_tree; cbn [tf_secs]; apply fold_place_asc; cbn [app]; rewrite map_map; exact Asc).
    assert (J : In (f_mf f, file_tree f) (tm_files x)).
    { assert (J : In (file_entry f) (tm_files (prune x))) by (rewrite <- M; now apply in_map). unfold prune in J. cbn [tm_files] in J. apply filter_In in J. apply J. }
    assert (S : forall s, In s (x_secs f) -> mat_section x (f_mf f) (x_mt s) = Val (sec_tree s)).
    { intros s Is. apply (full_sections x (f_mf f) (file_tree f)); [exact W|exact J|]. rewrite Tf. apply (in_map sec_entry) in Is. exact Is. }
    assert (N : f_mf f <> 30). { destruct (x_secs f) as [|s l] eqn:Es; [congruence|]. apply (Hs _ _ _ (S s (or_introl eq_refl))). }
    split; [|split; [rewrite Fe; reflexivity|split; [exact N|]]].
    + apply Forall_forall. intros s Is. rewrite Forall_forall in Sd, Hmf. split; [exact (Sd s Is)|]. intros c Ec. apply lib_lines. intros ->. apply class_32 in Ec. rewrite (Hmf s Is) in Ec.
      destruct (Hs _ _ _ (S s Is)) as (_ & _ & _ & L). specialize (L Ec). pose proof (Of f If) as (_ & Os & _). rewrite Forall_forall in Os. exact (sec_long s (Os s Is) L).
    + intros E8. cbv zeta. apply H8.
      * apply section_has. destruct (x_secs f) as [|s l] eqn:Es; [congruence|]. cbn [hd]. rewrite <- E8. exists (sec_tree s). apply S. now left.
      * intros mt Hh. apply section_has in Hh. destruct Hh as (s & Hh). unfold mat_section, mat_file, file_section, at_ in Hh. destruct W as (Wa & _). rewrite <- E8, (strict_find _ _ _ Wa J) in Hh. cbn [obind] in Hh. rewrite Tf in Hh.
        destruct (mfind mt (map sec_entry (x_secs f))) as [s'|] eqn:F; [|discriminate]. apply mfind_In in F. apply (in_map fst) in F. cbn [fst] in F. rewrite map_map in F. cbn [sec_entry fst] in F.
        pose proof (first_least _ Asc _ F) as L. destruct (x_secs f); [congruence|]. exact L.
  - rewrite Ce. reflexivity.
  - assert (K : exists k f, In (k, f) (tm_files (prune x)) /\ m_mat e = tf_mat f).
    { destruct (x_files e) as [|f l] eqn:Ef; [congruence|]. exists (f_mf f), (file_tree f). rewrite <- M. split; [left; reflexivity|]. unfold m_mat. rewrite Ef. reflexivity. }
    destruct K as (k & f & I & ->). destruct (prune_wf x W) as (_ & Hk). rewrite Forall_forall in Hk. destruct (Hk _ I) as (_ & K & _). cbn [snd] in K. rewrite K. cbn [prune tm_mat]. lia.
Qed.
(** ** one reading *)
Lemma gives_run {A} stop (bd : sdiv -> M A) t d x : item stop bd t d -> (gives bd t x <-> run (d' <- rd_sdiv ;; bd d') t 1 = Val x).
Proof.
  intros (l & t1 & -> & N & D & _ & C). split.
  - intros (h & n & G). destruct (headed_again _ _ _ _ _ _ _ _ G eq_refl N D) as (-> & R). unfold run, bind. rewrite (rd_line _ _ _ _ N D). specialize (R [] (1 + 1)). rewrite app_nil_r in R. rewrite R. reflexivity.
  - unfold run, bind. rewrite (rd_line _ _ _ _ N D). destruct (bd d _) as [y s| |] eqn:E; try discriminate. intros K. injection K as ->.
    rewrite <- (app_nil_r t1) in E. destruct (C _ _ _ _ E) as (n & R). exists d, n, l, t1. auto.
Qed.
Lemma prune_same x y : wfm x -> same_mat (prune x) y -> same_sections x y.
Proof.
  intros W (E & F & H & S). assert (P : forall mf mt, mat_hasMFMT (prune x) mf mt = mat_hasMFMT x mf mt) by (intros; apply (prune_section x mf mt W)).
  split; [exact E|]. split; [|split].
  - intros mf. rewrite <- F. unfold mat_hasMF, mhas. split.
    + destruct (mfind mf (tm_files (prune x))) as [f|] eqn:Ef; [|discriminate]. intros _. assert (I := mfind_In _ _ _ Ef). unfold prune in I. cbn [tm_files] in I. apply filter_In in I. destruct I as (_ & Fu). unfold full in Fu. cbn [snd] in Fu.
      destruct (tf_secs f) as [|[k s] l] eqn:Es; [discriminate|]. exists k. rewrite <- P. unfold mat_hasMFMT, file_has, mhas. rewrite Ef, Es. cbn [mfind]. now rewrite Z.eqb_refl.
    + intros (mt & K). rewrite <- P in K. unfold mat_hasMFMT in K. destruct (mfind mf (tm_files (prune x))); [reflexivity|discriminate].
  - intros. rewrite <- P. apply H.
  - intros mf mt v. rewrite S. split; intros (s & A & B); exists s; (split; [|exact B]); now apply (prune_val x mf mt s W).
Qed.
Notation mat_gives := (mat_gives sclass sbody skind_of lib_class).
(** everything about one material *)
Lemma mat_whole x : wfm x -> ready x -> exists e, mat_ok e /\ plain_mat e /\ canonical_mat e /\ m_mat e = tm_mat x /\ mat_content x = Val (lines_text (mat_all e))
  /\ ((exists y, mat_gives e y) <-> forall mf mt s, mat_section x mf mt = Val s -> exists y, parsed_as s y)
  /\ forall y, mat_gives e y -> same_sections x y.
Proof.
  intros W R. destruct (mat_source x W (ready_savable x R)) as (e & O & C & E & M). assert (P := source_plain e x W R O C M). exists e. split; [exact O|]. split; [exact P|]. split; [exact C|].
  split. { change (m_mat e) with (tm_mat (mat_tree e)). rewrite E. reflexivity. }
  split. { rewrite <- prune_content, <- E. now apply canon_mat_content. }
  assert (H := holds_tree e O). rewrite E in H. split.
  - rewrite (mat_parse_iff _ _ _ _ _ _ lib_table e (prune x) O P H). split; intros A mf mt s K; apply (A mf mt s); now apply (prune_val x mf mt s W).
  - intros y G. apply prune_same; [exact W|]. exact (same_holds _ _ _ _ _ _ lib_table e (prune x) y O P H G).
Qed.
(** ** C66 *)
(** a material of the tree parses exactly when each of its sections does on its own, and is then made of these *)
Theorem C66_material : forall x, made_mat x -> ready x ->
  ((exists y, mat_parse skind_of lib_class x = Val y) <-> forall mf mt s, mat_section x mf mt = Val s -> exists y, parsed_as s y)
  /\ forall y, mat_parse skind_of lib_class x = Val y -> same_sections x y.
Proof.
  intros x Mx R. assert (W := made_mat_wf x Mx). destruct (mat_whole x W R) as (e & O & P & C & _ & Ct & A & S).
  destruct (proj1 (mat_item _ _ _ _ _ _ lib_table e O P)) as (d & I).
  assert (G : forall y, mat_gives e y <-> mat_parse skind_of lib_class x = Val y) by (intros y; unfold mat_parse; rewrite Ct; cbn [obind]; exact (gives_run _ _ _ _ y I)).
  split; [rewrite <- A; split; intros (y & K); exists y; now apply G|]. intros y K. apply S, G, K.
Qed.
(** a file of the tree *)
Definition ready_file (f : tfile) : Prop :=
  0 < tf_mat f < 10000
  /\ (exists mt, file_has f mt = true)
  /\ (forall mt s, file_section f mt = Val s -> ts_mat s = tf_mat f /\ section_text s)
  /\ tf_mf f <> 30 /\ (tf_mf f = 32 -> forall mt s, file_section f mt = Val s -> long_end (ts_text s))
  /\ (tf_mf f = 8 -> forall n, file_has f n = true -> (forall mt, file_has f mt = true -> n <= mt) -> n = 454 \/ n = 457 \/ n = 459).
Notation sec_gives := (sec_gives sclass sbody skind_of lib_class).
Theorem C66_file : forall f, made_file f -> ready_file f -> known_mf (tf_mf f) = true ->
  ((exists y, file_parse skind_of lib_class (tf_mf f) f = Val y) <-> forall mt s, file_section f mt = Val s -> exists y, parsed_as s y)
  /\ forall y, file_parse skind_of lib_class (tf_mf f) f = Val y ->
       yf_mf y = tf_mf f /\ (forall mt, yfile_has y mt = file_has f mt)
       /\ (forall mt v, yfile_section y mt = Val v <-> exists s, file_section f mt = Val s /\ parsed_as s v).
Proof.
  intros f Mf (Hm & (mt0 & H0) & Hs & N30 & N32 & H8) Kn. assert (W := made_file_wf f Mf). pose proof W as (Wa & Wk).
  destruct (file_source f W) as (e & O & C & E & M); [intros K; unfold file_has, mhas in H0; rewrite K in H0; discriminate|exact Hm| |].
  { intros k s I. apply (Hs k). unfold file_section, at_. now rewrite (strict_find _ _ _ Wa I). }
  assert (Emf : f_mf e = tf_mf f) by (rewrite <- E; reflexivity). pose proof O as (Nf & Os & Hmf & _). pose proof C as (Sd & Fe & Asc & _).
  assert (P : plain_file e).
  { split; [|split; [rewrite Fe; reflexivity|split; [congruence|]]].
    - rewrite Forall_forall in *. intros s Is. split; [exact (Sd s Is)|]. intros c Ec. apply lib_lines. intros ->. apply class_32 in Ec. rewrite (Hmf s Is), Emf in Ec. apply (sec_long s (Os s Is)), (N32 Ec (x_mt s)).
      unfold file_section, at_. rewrite (strict_find (tf_secs f) (x_mt s) (sec_tree s) Wa); [reflexivity|]. rewrite <- M. exact (in_map sec_entry _ _ Is).
    - intros E8. cbv zeta. assert (Kf : map x_mt (x_secs e) = map fst (tf_secs f)) by (rewrite <- M, map_map; reflexivity).
      assert (Hh : forall k, file_has f k = true <-> In k (map x_mt (x_secs e))) by (intros k; rewrite Kf; apply mhas_In).
      apply H8; [congruence| |intros mt I; apply Hh in I; pose proof (first_least _ Asc _ I) as L; destruct (x_secs e); [congruence|exact L]].
      apply Hh. destruct (x_secs e); [congruence|]. left. reflexivity. }
  destruct (proj1 (file_item _ _ _ _ _ _ lib_table e O P)) as (d & I & _ & Dm). pose proof (proj2 (file_item _ _ _ _ _ _ lib_table e O P)) as G.
  assert (Ct : file_content f = Val (lines_text (file_all e))) by (rewrite <- E; now apply canon_file_content).
  assert (Gr : forall y, file_gives sclass sbody skind_of lib_class e y <-> file_parse skind_of lib_class (tf_mf f) f = Val y).
  { intros y. unfold file_parse. rewrite Ct. cbn [obind]. unfold file_gives. rewrite (gives_run _ _ _ _ y I). destruct I as (l & t1 & El & Nl & D & _). rewrite El. unfold run, parse_yfile, bind. rewrite (rd_line _ _ _ _ Nl D).
    unfold rd_any_file. rewrite Dm, Emf, Kn. reflexivity. }
  assert (Sg : forall s y, In s (x_secs e) -> (sec_gives s y <-> parsed_as (sec_tree s) y) /\ (sec_gives s y -> y_mt y = x_mt s)).
  { intros s y Is. pose proof P as (Ps & _). rewrite Forall_forall in Ps, Os. destruct (Ps s Is) as (A & B). destruct (sec_item _ _ _ _ _ _ lib_table s (Os s Is) A B) as (_ & X & Y). split; [exact (Y y)|exact (X y)]. }
  assert (Fs : forall mt s, file_section f mt = Val s <-> exists u, In u (x_secs e) /\ x_mt u = mt /\ sec_tree u = s).
  { intros mt s. unfold file_section, at_. split.
    - destruct (mfind mt (tf_secs f)) as [s'|] eqn:F; [|discriminate]. intros K. injection K as ->. apply mfind_In in F. rewrite <- M in F. apply in_map_iff in F. destruct F as (u & Eu & Iu). exists u. unfold sec_entry in Eu. injection Eu. auto.
    - intros (u & Iu & <- & <-). apply (in_map sec_entry) in Iu. rewrite M in Iu. unfold sec_entry in Iu. now rewrite (strict_find _ _ _ Wa Iu). }
  split.
  - split.
    + intros (y & K) mt s Es. apply Gr, G in K. destruct K as (_ & xs & F & _). apply Fs in Es. destruct Es as (u & Iu & _ & <-). destruct (proj1 (Forall2_at _ _ _ F) u Iu) as (v & _ & Gv). exists v. now apply (Sg u v Iu).
    + intros A. destruct (file_all_parse _ _ _ _ _ _ lib_table e O P) as (y & K).
      * intros u Iu. destruct (A (x_mt u) (sec_tree u)) as (v & Pv); [apply Fs; eauto|]. exists v. now apply (Sg u v Iu).
      * exists y. now apply Gr.
  - intros y K. apply Gr, G in K. destruct K as (Ey & xs & F & Fi). destruct (Forall2_at _ _ _ F) as (A1 & A2). split; [congruence|].
    assert (Yv : forall mt v, yfile_section y mt = Val v <-> exists s, file_section f mt = Val s /\ parsed_as s v).
    { intros mt v. unfold yfile_section, at_. split.
      - destruct (mfind mt (yf_secs y)) as [v'|] eqn:Em; [|discriminate]. intros J. injection J as ->. apply (fill_find _ _ _ Fi) in Em. destruct Em as (Iv & Kv). destruct (A2 v Iv) as (u & Iu & Gu). exists (sec_tree u). split; [|now apply (Sg u v Iu)].
        apply Fs. exists u. split; [exact Iu|]. split; [|reflexivity]. rewrite <- Kv. symmetry. now apply (Sg u v Iu).
      - intros (s & Es & Pv). apply Fs in Es. destruct Es as (u & Iu & <- & <-). destruct (A1 u Iu) as (w & Iw & Gw). assert (w = v). { apply (proj1 (Sg u w Iu)) in Gw. destruct Gw as (C1 & C2), Pv as (C3 & C4). rewrite C1 in C3. injection C3 as C3. destruct w as [c b], v as [c' b']. cbn [projT1 projT2] in *. subst c'. rewrite C2 in C4. injection C4 as ->. reflexivity. }
        subst w. rewrite (proj2 (fill_find _ _ _ Fi (x_mt u) v)); [reflexivity|]. split; [exact Iw|]. now apply (Sg u v Iu). }
    split; [|exact Yv]. intros mt. apply bool_eq. unfold yfile_has, file_has, mhas. split.
    + destruct (mfind mt (yf_secs y)) as [v|] eqn:Em; [|discriminate]. intros _. destruct (proj1 (Yv mt v)) as (s & Es & _); [unfold yfile_section, at_; now rewrite Em|]. unfold file_section, at_ in Es. destruct (mfind mt (tf_secs f)); [reflexivity|discriminate].
    + destruct (mfind mt (tf_secs f)) as [s|] eqn:Em; [|discriminate]. intros _. assert (Es : file_section f mt = Val s) by (unfold file_section, at_; now rewrite Em). apply Fs in Es. destruct Es as (u & Iu & Eu & _).
      destruct (A1 u Iu) as (w & Iw & Gw). rewrite (proj2 (fill_find _ _ _ Fi mt w)); [reflexivity|]. split; [exact Iw|]. rewrite <- Eu. now apply (Sg u w Iu).
Qed.
(** the whole tape *)
Lemma mm_filter (l : list (Z * tmat)) mat : mmrange mat l = map snd (filter (fun p => fst p =? mat) l).
Proof. reflexivity. Qed.
Lemma tape_tpid_line i : (length (tptext i) <= 66)%nat -> noLF (tptext i) ->
  exists l, pr_tpid i 0 0 0 = l ++ [LF] /\ noLF l /\ tpid_line l (mktpid (lj 66 (tptext i)) 0) /\ exists c, length c = 66%nat /\ l = c ++ right_justified 4 0 ++ right_justified 2 0 ++ right_justified 3 0 ++ blanks 5.
Proof.
  intros L N. set (j := mktpid (lj 66 (tptext i)) 0). assert (Lj : length (tptext j) = 66%nat) by (unfold j; cbn [tptext]; unfold lj; rewrite app_length; unfold blanks; rewrite repeat_length; lia).
  assert (Nj : noLF (tptext j)) by (unfold j; cbn [tptext]; unfold lj; apply noLF_app; split; [exact N|apply noLF_blanks]).
  assert (Ep : pr_tpid i 0 0 0 = pr_tpid j 0 0 0) by (unfold pr_tpid, j; cbn [tptext]; rewrite (lj_self 66 (lj 66 (tptext i))) by exact Lj; reflexivity).
  assert (El : pr_tpid j 0 0 0 = (tptext j ++ right_justified 4 0 ++ right_justified 2 0 ++ right_justified 3 0 ++ blanks 5) ++ [LF]).
  { unfold pr_tpid. rewrite (lj_self 66 (tptext j)) by exact Lj. rewrite canon_tail0, <- !app_assoc. reflexivity. }
  eexists. split; [rewrite Ep; exact El|]. assert (Nl : noLF (tptext j ++ right_justified 4 0 ++ right_justified 2 0 ++ right_justified 3 0 ++ blanks 5)) by (apply noLF_app; split; [exact Nj|]; intros K; vm_compute in K; intuition discriminate).
  split; [exact Nl|]. split; [|eauto]. assert (R := reads_tpid j 0 Lj Nj eq_refl [] 0). rewrite app_nil_r in R. apply tpid_inv in R. destruct R as (l & b & E & T & _). rewrite El, (next_line_app _ [] Nl) in E. injection E as <- <-. exact T.
Qed.
Lemma tape_whole : forall T i, wft T -> tt_tpid T = Some i -> (length (tptext i) <= 66)%nat -> noLF (tptext i) -> 0 < len (tt_mats T) < 2 ^ 31 ->
  (forall mat l x, tape_material T mat = Val l -> In x l -> ready x) ->
  ((exists yt, tape_parse T = Val yt) <-> forall mat l x mf mt s, tape_material T mat = Val l -> In x l -> mat_section x mf mt = Val s -> exists y, parsed_as s y)
  /\ forall yt, tape_parse T = Val yt ->
       yt_id yt = mktpid (lj 66 (tptext i)) 0
       /\ forall mat, tape_has T mat = ytape_has yt mat /\ tape_number T mat = len (ytape_material yt mat)
         /\ (tape_has T mat = true -> exists l, tape_material T mat = Val l /\ Forall2 same_sections l (ytape_material yt mat)).
Proof.
  intros T i (Wa & Wk) Ti Li Ni Hn Hr.
  assert (Look : forall k x, In (k, x) (tt_mats T) -> exists l, tape_material T k = Val l /\ In x l).
  { intros k x I. exists (mmrange k (tt_mats T)). assert (J : In x (mmrange k (tt_mats T))) by (rewrite mm_filter; apply in_map_iff; exists (k, x); split; [reflexivity|]; apply filter_In; split; [exact I|cbn; lia]).
    split; [|exact J]. unfold tape_material, tape_has, tape_number. destruct (mmrange k (tt_mats T)); [destruct J|]. replace (_ =? 0) with false by (cbn [length]; lia). reflexivity. }
  assert (Back : forall mat l x, tape_material T mat = Val l -> In x l -> In (mat, x) (tt_mats T)).
  { intros mat l x. unfold tape_material. destruct (tape_has T mat); [|discriminate]. intros E I. injection E as <-. rewrite mm_filter in I. apply in_map_iff in I. destruct I as ([k y] & <- & I). apply filter_In in I. destruct I as (I & K). cbn in *. replace mat with k by lia. exact I. }
  destruct (list_ex (fun p e => mat_ok e /\ plain_mat e /\ canonical_mat e /\ m_mat e = fst p /\ mat_content (snd p) = Val (lines_text (mat_all e))
     /\ ((exists y, mat_gives e y) <-> forall mf mt s, mat_section (snd p) mf mt = Val s -> exists y, parsed_as s y) /\ forall y, mat_gives e y -> same_sections (snd p) y) (tt_mats T)) as (es & F).
  { rewrite Forall_forall in *. intros [k x] I. destruct (Wk _ I) as (K & Wx). cbn [fst snd] in *. destruct (Look k x I) as (l & El & Il). destruct (mat_whole x Wx (Hr k l x El Il)) as (e & A1 & A2 & A3 & A4 & A5). exists e. rewrite A4, K. tauto. }
  destruct (tape_tpid_line i Li Ni) as (l0 & Ep & Nl & Tl & c0 & Lc & Ec).
  set (src := mkts l0 es (canonical_end (-1))). assert (C1 : in_cols 4 (-1)) by (unfold in_cols; cbn; lia).
  assert (Ae : Forall (fun e => mat_ok e /\ plain_mat e /\ canonical_mat e) es) by (clear - F; induction F as [|p e l r H _ IH]; constructor; tauto).
  assert (Keys : map m_mat es = map fst (tt_mats T)) by (clear - F; induction F as [|p e l r H _ IH]; [reflexivity|]; cbn [map]; f_equal; tauto).
  assert (Sep : separated_all es).
  { clear - Ae. induction Ae as [|e l (_ & P & _) A IH]; [exact Logic.I|]. cbn. destruct l as [|e' l]; [exact Logic.I|]. split; [|exact IH]. intros K. destruct P as (_ & P & _). rewrite K in P. discriminate P. }
  assert (O : tape_ok src).
  { split; [eexists; exact Tl|]. split; [exact Nl|]. cbn [x_mats src x_tend]. split; [eapply Forall_impl; [|exact Ae]; cbn; tauto|]. split; [exact Sep|]. split; [|now apply canon_noLF].
    exists (mksdiv zero_cont (-1) 0 0). split; [apply canon_div; [exact C1|lia]|]. cbn. repeat split; lia. }
  assert (Ln : length es = length (tt_mats T)) by (symmetry; exact (F2_length _ _ _ F)).
  assert (P : plain_tape sclass sbody skind_of lib_class lib_rep lib_inv src) by (split; cbn [x_mats src]; [unfold len in *; rewrite Ln; exact Hn|eapply Forall_impl; [|exact Ae]; cbn; tauto]).
  set (t := lines_text (tape_all src)).
  assert (Ht : tape_text src t).
  { exists (lines_text [x_tend src]). unfold t, tape_all. split.
    - rewrite app_comm_cons, lines_app. reflexivity.
    - unfold lines_text. cbn [flat_map]. rewrite app_nil_r, next_line_app; [reflexivity|]. apply O. }
  assert (Ct : tape_content T = Val t).
  { unfold tape_content. rewrite Ti, Ep. assert (Em : oconcat (fun p : Z * tmat => mat_content (snd p)) (tt_mats T) = Val (lines_text (flat_map mat_all es))).
    { rewrite lines_flat. clear - F. induction F as [|p e l r H _ IH]; [reflexivity|]. unfold oconcat in *. cbn [fold_right flat_map]. destruct H as (_ & _ & _ & _ & -> & _). rewrite IH. reflexivity. }
    rewrite Em. unfold oapp. cbn [obind]. change (Val (pr_sdiv TEND)) with (Val (pr_sdiv (mksdiv zero_cont (-1) 0 0))). rewrite pr_end by exact C1. rewrite close_val; [|destruct l0; discriminate].
    f_equal. unfold t, tape_all, src. cbn [x_tpid x_mats x_tend]. rewrite lines_cons', lines_app, lines_one, <- !app_assoc. reflexivity. }
  destruct (tape_gives _ _ _ _ _ _ lib_table src t 1 O P Ht) as (i' & Ti' & G1 & G2). cbn [x_tpid x_mats src] in Ti', G1, G2.
  assert (Ei : i' = mktpid (lj 66 (tptext i)) 0). { destruct Tl as (A1 & B1), Ti' as (A2 & B2). destruct (carries_fun _ _ _ _ _ _ _ B1 B2) as (K & _). destruct i'. cbn in *. congruence. }
  assert (Pr : forall yt, tape_parse T = Val yt -> yt_id yt = i' /\ Forall2 mat_gives es (yt_mats yt)).
  { intros yt. unfold tape_parse. rewrite Ct. cbn [obind]. unfold run. destruct (rd_ytape _ _ _) as [y s| |] eqn:E; try discriminate. intros K. injection K as ->. exact (G1 _ _ eq_refl). }
  split.
  - split.
    + intros (yt & K) mat l x mf mt s El Ix Es. destruct (Pr _ K) as (_ & F2). assert (I := Back _ _ _ El Ix). destruct (proj1 (Forall2_at _ _ _ F) _ I) as (e & Ie & He). destruct (proj1 (Forall2_at _ _ _ F2) e Ie) as (y & _ & Gy).
      destruct He as (_ & _ & _ & _ & _ & (A & _) & _). cbn [snd] in A. apply (A ltac:(eauto) mf mt s Es).
    + intros A. destruct (list_ex mat_gives es) as (ms & F2).
      * apply Forall_forall. intros e Ie. destruct (proj2 (Forall2_at _ _ _ F) e Ie) as ([k x] & Ix & He). destruct He as (_ & _ & _ & _ & _ & (_ & B) & _). cbn [snd] in B. apply B. intros mf mt s Es. destruct (Look k x Ix) as (l & El & Il). exact (A _ _ _ _ _ _ El Il Es).
      * destruct (G2 ms F2) as (s' & E). exists (mkytape i' ms). unfold tape_parse. rewrite Ct. cbn [obind]. unfold run. rewrite E. reflexivity.
  - intros yt K. destruct (Pr _ K) as (Id & F2). split; [congruence|].
    assert (Fs : Forall2 (fun p y => fst p = ym_mat y /\ same_sections (snd p) y) (tt_mats T) (yt_mats yt)).
    { clear - F F2 Wk. revert F2. generalize (yt_mats yt). induction F as [|p e l r H F IH]; intros ys F2; inversion F2; subst; constructor; inversion Wk; subst; [|apply IH; assumption].
      destruct H as (_ & _ & _ & _ & _ & _ & S). assert (Sy := S _ ltac:(eassumption)). split; [|exact Sy]. destruct Sy as (<- & _). symmetry. tauto. }
    assert (Fl : forall mat, Forall2 same_sections (mmrange mat (tt_mats T)) (ytape_material yt mat)).
    { intros mat. unfold ytape_material. rewrite mm_filter. clear - Fs. induction Fs as [|p y l r (E & S) _ IH]; [constructor|]. cbn [filter]. rewrite E. destruct (ym_mat y =? mat); [constructor; assumption|exact IH]. }
    intros mat. specialize (Fl mat). assert (Lm := F2_length _ _ _ Fl). unfold tape_has, ytape_has, tape_number, len. rewrite Lm. split; [destruct (length (ytape_material yt mat)); reflexivity|]. split; [reflexivity|].
    intros H. exists (mmrange mat (tt_mats T)). split; [|exact Fl]. unfold tape_material, tape_has, tape_number. rewrite Lm. now rewrite H.
Qed.
Theorem C66_tape : forall T i, made_tape T -> tt_tpid T = Some i -> (length (tptext i) <= 66)%nat -> noLF (tptext i) -> 0 < len (tt_mats T) < 2 ^ 31 ->
  (forall mat l x, tape_material T mat = Val l -> In x l -> ready x) ->
  ((exists yt, tape_parse T = Val yt) <-> forall mat l x mf mt s, tape_material T mat = Val l -> In x l -> mat_section x mf mt = Val s -> exists y, parsed_as s y)
  /\ forall yt, tape_parse T = Val yt ->
       yt_id yt = mktpid (lj 66 (tptext i)) 0
       /\ forall mat, tape_has T mat = ytape_has yt mat /\ tape_number T mat = len (ytape_material yt mat)
         /\ (tape_has T mat = true -> exists l, tape_material T mat = Val l /\ Forall2 same_sections l (ytape_material yt mat)).
Proof. intros T i Mt. apply tape_whole. now apply made_tape_wf. Qed.
(** materials without sections are not written *)
Definition written (x : tmat) : bool := existsb full (tm_files x).
Lemma written_spec x : wfm x -> written x = true <-> exists mf mt, mat_hasMFMT x mf mt = true.
Proof.
  intros W. unfold written. rewrite existsb_exists. split.
  - intros ([k f] & I & F). unfold full in F. cbn [snd] in F. destruct (tf_secs f) as [|[j s] r] eqn:E; [discriminate|]. exists k, j. apply section_has. exists s. apply (full_sections x k f j s W I). rewrite E. now left.
  - intros (mf & mt & K). unfold mat_hasMFMT, file_has, mhas in K. destruct (mfind mf (tm_files x)) as [f|] eqn:E; [|discriminate]. exists (mf, f). split; [now apply mfind_In|]. unfold full. cbn [snd]. destruct (tf_secs f); [discriminate K|reflexivity].
Qed.
Lemma unwritten_content x : written x = false -> mat_content x = Val [].
Proof.
  intros H. unfold mat_content. replace (oconcat (fun p : Z * tfile => file_content (snd p)) (tm_files x)) with (Val [] : pout); [reflexivity|].
  unfold written in H. induction (tm_files x) as [|p l IH]; [reflexivity|]. cbn [existsb] in H. apply orb_false_iff in H. destruct H as (F & H). unfold oconcat in *. cbn [fold_right]. rewrite <- (IH H).
  unfold full in F. destruct (tf_secs (snd p)) eqn:E; [|discriminate]. unfold file_content. rewrite E. reflexivity.
Qed.
Definition strip (T : ttape) : ttape := mkttape (tt_tpid T) (filter (fun p => written (snd p)) (tt_mats T)).
Lemma strip_content T : tape_content (strip T) = tape_content T.
Proof.
  unfold tape_content, strip. cbn [tt_tpid tt_mats]. do 2 f_equal. induction (tt_mats T) as [|p l IH]; [reflexivity|]. unfold oconcat in *. cbn [filter fold_right]. destruct (written (snd p)) eqn:E; cbn [fold_right]; rewrite IH; [reflexivity|].
  rewrite (unwritten_content _ E). match goal with |- ?x = _ +++ ?x => destruct x; reflexivity end.
Qed.
Lemma strip_wf T : wft T -> wft (strip T).
Proof.
  intros (A & B). split; cbn [strip tt_mats].
  - clear B. induction (tt_mats T) as [|p l IH]; [exact A|]. cbn [map] in A. apply weak_cons in A. destruct A as (A1 & A2). cbn [filter]. destruct (written (snd p)); [|exact (IH A2)].
    cbn [map]. apply weak_cons. split; [|exact (IH A2)]. rewrite Forall_forall in *. intros k I. apply A1. apply in_map_iff in I. destruct I as (q & <- & I). apply filter_In in I. now apply in_map.
  - rewrite Forall_forall in *. intros p I. apply filter_In in I. now apply B.
Qed.
Lemma strip_range T mat : mmrange mat (tt_mats (strip T)) = filter written (mmrange mat (tt_mats T)).
Proof.
  rewrite !mm_filter. cbn [strip tt_mats]. induction (tt_mats T) as [|[k x] l IH]; [reflexivity|]. cbn [filter snd fst]. destruct (written x) eqn:E; cbn [filter fst snd]; destruct (k =? mat); cbn [map filter snd]; rewrite ?E, ?IH; reflexivity.
Qed.
Lemma material_range T mat l : tape_material T mat = Val l <-> l <> [] /\ l = mmrange mat (tt_mats T).
Proof.
  unfold tape_material, tape_has, tape_number. destruct (mmrange mat (tt_mats T)) as [|x r] eqn:E.
  - cbn [length]. split; [discriminate|]. intros (N & ->). congruence.
  - replace (negb _) with true by (cbn [length]; lia). split; [intros K; injection K as <-; split; [discriminate|reflexivity]|]. intros (_ & ->). reflexivity.
Qed.
(** with materials without sections: they are lost, and so is the tape if there are no others *)
Theorem C66_any_tape : forall T i, made_tape T -> tt_tpid T = Some i -> (length (tptext i) <= 66)%nat -> noLF (tptext i) -> len (tt_mats T) < 2 ^ 31 ->
  (forall mat l x, tape_material T mat = Val l -> In x l -> ready x \/ forall mf mt, mat_hasMFMT x mf mt = false) ->
  ((exists yt, tape_parse T = Val yt) <->
    (exists mat l x mf mt, tape_material T mat = Val l /\ In x l /\ mat_hasMFMT x mf mt = true)
    /\ forall mat l x mf mt s, tape_material T mat = Val l -> In x l -> mat_section x mf mt = Val s -> exists y, parsed_as s y)
  /\ forall yt, tape_parse T = Val yt ->
       yt_id yt = mktpid (lj 66 (tptext i)) 0
       /\ (forall mat, tape_has T mat = false -> ytape_has yt mat = false)
       /\ forall mat l, tape_material T mat = Val l -> exists keep, (forall x, In x l -> keep x = true <-> exists mf mt, mat_hasMFMT x mf mt = true)
         /\ Forall2 same_sections (filter keep l) (ytape_material yt mat).
Proof.
  intros T i Mt Ti Li Ni Hn Hr. assert (W := made_tape_wf T Mt). assert (Wm : forall mat l x, tape_material T mat = Val l -> In x l -> wfm x).
  { intros mat l x El Ix. apply material_range in El. destruct El as (_ & ->). rewrite mm_filter in Ix. apply in_map_iff in Ix. destruct Ix as (p & <- & I). apply filter_In in I. destruct W as (_ & W). rewrite Forall_forall in W. apply (W p), I. }
  assert (St : forall mat l, tape_material (strip T) mat = Val l <-> l <> [] /\ l = filter written (mmrange mat (tt_mats T))) by (intros mat l; rewrite material_range, strip_range; reflexivity).
  assert (Sub : forall mat l x, tape_material (strip T) mat = Val l -> In x l -> exists l', tape_material T mat = Val l' /\ In x l' /\ written x = true).
  { intros mat l x El Ix. apply St in El. destruct El as (_ & ->). apply filter_In in Ix. exists (mmrange mat (tt_mats T)). split; [|exact Ix]. apply material_range. split; [|reflexivity]. intros K. rewrite K in Ix. destruct Ix as ([] & _). }
  assert (Sup : forall mat l x, tape_material T mat = Val l -> In x l -> written x = true -> exists l', tape_material (strip T) mat = Val l' /\ In x l').
  { intros mat l x El Ix Wx. apply material_range in El. destruct El as (_ & ->). assert (J : In x (filter written (mmrange mat (tt_mats T)))) by (apply filter_In; auto). exists (filter written (mmrange mat (tt_mats T))). split; [|exact J]. apply St. split; [|reflexivity]. intros K. rewrite K in J. destruct J. }
  assert (Ep : tape_parse (strip T) = tape_parse T) by (unfold tape_parse; now rewrite strip_content).
  assert (Rs : forall mat l x, tape_material (strip T) mat = Val l -> In x l -> ready x).
  { intros mat l x El Ix. destruct (Sub _ _ _ El Ix) as (l' & El' & Ix' & Wx). destruct (Hr _ _ _ El' Ix') as [R|R]; [exact R|]. apply written_spec in Wx; [|exact (Wm _ _ _ El' Ix')]. destruct Wx as (mf & mt & K). rewrite R in K. discriminate. }
  assert (Le : len (tt_mats (strip T)) <= len (tt_mats T)) by (unfold len, strip; cbn [tt_mats]; assert (H : (length (filter (fun p : Z * tmat => written (snd p)) (tt_mats T)) <= length (tt_mats T))%nat) by (clear; generalize (tt_mats T); intros L; induction L as [|a r IH]; [cbn; lia|]; cbn [filter]; destruct (written (snd a)); cbn [length]; lia); lia).
  destruct (tt_mats (strip T)) as [|p0 r0] eqn:Es.
  - assert (Z : tape_parse T = Throw EStd).
    { rewrite <- Ep. unfold tape_parse, tape_content. rewrite Es. change (tt_tpid (strip T)) with (tt_tpid T). rewrite Ti. destruct (tape_tpid_line i Li Ni) as (l0 & E0 & Nl & Tl & _). rewrite E0.
      assert (C1 : in_cols 4 (-1)) by (unfold in_cols; cbn; lia). change (Val (pr_sdiv TEND)) with (Val (pr_sdiv (mksdiv zero_cont (-1) 0 0)) : pout). rewrite pr_end by exact C1.
      unfold oconcat. cbn [fold_right]. unfold oapp. cbn [obind]. rewrite app_nil_r, close_val; [|destruct l0; discriminate]. cbn [obind]. unfold run, rd_ytape, on_err, bind.
      rewrite <- app_assoc. change ([LF] ++ canonical_end (-1) ++ [LF]) with (LF :: canonical_end (-1) ++ [LF]).
      rewrite (tpid_fwd _ l0 (canonical_end (-1) ++ [LF]) 1 _ (next_line_app _ _ Nl) Tl). unfold get_pos, rd_ymats, bind. cbn [buf].
      rewrite (sdiv_fwd _ (canonical_end (-1)) [] _ (mksdiv zero_cont (-1) 0 0)); [|rewrite (next_line_app _ [] (canon_noLF _ C1)); reflexivity|apply canon_div; [exact C1|lia]].
      reflexivity. }
    split; [|intros yt K; congruence]. split; [intros (yt & K); congruence|]. intros ((mat & l & x & mf & mt & El & Ix & K) & _). assert (Wx : written x = true) by (apply written_spec; [exact (Wm _ _ _ El Ix)|eauto]).
    destruct (Sup _ _ _ El Ix Wx) as (l' & El' & Ix'). apply material_range in El'. rewrite Es in El'. destruct El' as (N & ->). destruct (N eq_refl).
  - rewrite <- Es in Le. destruct (tape_whole (strip T) i (strip_wf T W) Ti Li Ni) as (A & B); [split; [rewrite Es; unfold len; cbn [length]; lia|lia]|exact Rs|]. rewrite Ep in A, B. split.
    + rewrite A. split.
      * intros H. split.
        -- assert (I : In p0 (tt_mats (strip T))) by (rewrite Es; now left). assert (I' := I). cbn [strip tt_mats] in I. apply filter_In in I. destruct I as (I & Wx). assert (J : In (snd p0) (mmrange (fst p0) (tt_mats T))) by (rewrite mm_filter; apply in_map; apply filter_In; split; [exact I|lia]).
           assert (El : tape_material T (fst p0) = Val (mmrange (fst p0) (tt_mats T))) by (apply material_range; split; [intros K; rewrite K in J; destruct J|reflexivity]).
           apply written_spec in Wx; [|exact (Wm _ _ _ El J)]. destruct Wx as (mf & mt & K). exists (fst p0), (mmrange (fst p0) (tt_mats T)), (snd p0), mf, mt. auto.
        -- intros mat l x mf mt s El Ix Ex. assert (Wx : written x = true) by (apply written_spec; [exact (Wm _ _ _ El Ix)|]; exists mf, mt; apply section_has; eauto). destruct (Sup _ _ _ El Ix Wx) as (l' & El' & Ix'). exact (H _ _ _ _ _ _ El' Ix' Ex).
      * intros (_ & H) mat l x mf mt s El Ix Ex. destruct (Sub _ _ _ El Ix) as (l' & El' & Ix' & _). exact (H _ _ _ _ _ _ El' Ix' Ex).
    + intros yt K. destruct (B yt K) as (B1 & B2). split; [exact B1|]. split.
      * intros mat H. destruct (B2 mat) as (<- & _). unfold tape_has, tape_number in *. rewrite strip_range. destruct (mmrange mat (tt_mats T)); [reflexivity|]. cbn [length] in H. lia.
      * intros mat l El. exists written. split; [intros x Ix; apply written_spec; exact (Wm _ _ _ El Ix)|]. apply material_range in El. destruct El as (_ & ->). destruct (B2 mat) as (H1 & H2 & H3).
        destruct (tape_has (strip T) mat) eqn:Eh.
        -- destruct (H3 eq_refl) as (l' & El' & F). apply material_range in El'. rewrite strip_range in El'. destruct El' as (_ & ->). exact F.
        -- unfold tape_has, tape_number in Eh. rewrite strip_range in Eh. destruct (filter written _) as [|]; [|cbn [length] in Eh; lia]. replace (ytape_material yt mat) with (@nil ymat); [constructor|]. unfold ytape_has in H1. destruct (ytape_material yt mat); [reflexivity|cbn [length] in H1; lia].
Qed.
(** the sections of a tape that was read have such texts, and its identification has 66 characters *)
Theorem C66_indexed : forall t T s, index_tape t = Ok T s ->
  (exists i, tt_tpid T = Some i /\ length (tptext i) = 66%nat /\ noLF (tptext i))
  /\ forall mat l x mf mt u, tape_material T mat = Val l -> In x l -> mat_section x mf mt = Val u -> section_text u /\ ts_mf u = mf /\ ts_mt u = mt.
Proof.
  intros t T s E. destruct (proj1 (index_tape_grammar t T)) as (src & i & O & Ht & Ti & ->); [eauto|]. split.
  - exists i. split; [reflexivity|]. destruct Ti as (Ti & _). pose proof O as (_ & Nt & _). rewrite Ti. split.
    + unfold lj. rewrite app_length. unfold blanks. rewrite repeat_length. assert (H : (length (col 0 66 (x_tpid src)) <= 66)%nat) by (unfold col; change (skipn 0 ?x) with x; rewrite firstn_length; lia). lia.
    + unfold lj. apply noLF_app. split; [|apply noLF_blanks]. unfold col. change (skipn 0 ?x) with x. intros K. apply Nt. rewrite <- (firstn_skipn 66 (x_tpid src)). apply in_or_app. now left.
  - intros mat l x mf mt u El Ix Eu. unfold tape_material in El. destruct (tape_has _ mat); [|discriminate]. injection El as <-. unfold tape_tree in Ix. cbn [tt_mats] in Ix.
    rewrite fold_mmput_range in Ix by exact Logic.I. cbn [mmrange filter map app] in Ix. unfold mat_entry in Ix. rewrite (range_map m_mat mat_tree) in Ix. apply in_map_iff in Ix. destruct Ix as (m & <- & Im). apply filter_In in Im. destruct Im as (Im & _).
    pose proof O as (_ & _ & Om & _). rewrite Forall_forall in Om. assert (Okm := Om m Im). destruct (holds_tree m Okm) as (_ & _ & _ & H4 & H5 & _).
    assert (D : (exists f e, In f (x_files m) /\ In e (x_secs f) /\ f_mf f = mf /\ x_mt e = mt) \/ forall f e, In f (x_files m) -> In e (x_secs f) -> (f_mf f, x_mt e) <> (mf, mt)).
    { clear. induction (x_files m) as [|f fs IH]; [right; intros f e []|]. destruct IH as [(g & e & A & B)|IH]; [left; exists g, e; split; [now right|exact B]|].
      assert (K : (exists e, In e (x_secs f) /\ f_mf f = mf /\ x_mt e = mt) \/ forall e, In e (x_secs f) -> (f_mf f, x_mt e) <> (mf, mt)).
      { clear. destruct (Z.eq_dec (f_mf f) mf) as [Ef|N]; [|right; intros e _ K; congruence]. induction (x_secs f) as [|e es IH]; [right; intros e []|]. destruct IH as [(g & A & B)|IH]; [left; exists g; split; [now right|exact B]|].
        destruct (Z.eq_dec (x_mt e) mt) as [Ee|N]; [left; exists e; split; [now left|auto]|]. right. intros g [<-|I]; [congruence|auto]. }
      destruct K as [(e & A & B)|K]; [left; exists f, e; split; [now left|tauto]|]. right. intros g e [<-|I]; auto. }
    destruct D as [(f & e & If & Ie & Ef & Ee)|D]; [|rewrite (proj2 (H5 mf mt D)) in Eu; discriminate Eu].
    assert (E1 := proj2 (H4 f e If Ie)). rewrite Ef, Ee, Eu in E1. injection E1 as ->. cbn [ts_mf ts_mt].
    pose proof Okm as (_ & Of & _). rewrite Forall_forall in Of. pose proof (Of f If) as (_ & Os & Hmf & _). rewrite Forall_forall in Os, Hmf. destruct (Os e Ie) as (A1 & A2 & A3 & _ & A5).
    split; [|split; [rewrite (Hmf e Ie); exact Ef|reflexivity]]. exists (x_head e), (x_body e), (x_last e). split; [reflexivity|]. split; [cbn [ts_mat ts_mf ts_mt]; rewrite <- Ee; exact A1|]. split; [exact A2|]. split; [exact A3|].
    unfold sec_all, sec_lines in A5. apply Forall_app in A5. apply A5.
Qed.
(** reading the tape and parsing its index is the same, where both are defined *)
Definition same_material_seen (y y' : ymat) : Prop :=
  ym_mat y = ym_mat y' /\ forall mf mt, ymat_hasMFMT y mf mt = ymat_hasMFMT y' mf mt /\ forall v, ymat_section y mf mt = Val v <-> ymat_section y' mf mt = Val v.
Theorem C66_same_as_reading : forall src t ln yt s, tape_ok src -> plain_source src -> tape_text src t -> rd_ytape skind_of lib_class (mkst t ln) = Ok yt s ->
  forall T s', index_tape t = Ok T s' -> (forall mat l x, tape_material T mat = Val l -> In x l -> ready x) ->
  exists yt', tape_parse T = Val yt' /\ tptext (yt_id yt') = tptext (yt_id yt)
    /\ forall mat, ytape_has yt' mat = ytape_has yt mat /\ Forall2 same_material_seen (ytape_material yt mat) (ytape_material yt' mat).
Proof.
  intros src t ln yt s O P Ht E T s' ET R. destruct (C62_library_accepted src t ln O P Ht) as (T0 & s0 & E0 & A). rewrite ET in E0. injection E0 as <- <-.
  destruct (C62_library_agree src t ln O P Ht) as (T0 & s0 & E0 & B). rewrite ET in E0. injection E0 as <- <-. destruct (B _ _ E) as (Bi & Bn & Bm).
  destruct (C66_indexed t T s' ET) as ((i & Ti & Li & Ni) & _).
  assert (Hn : 0 < len (tt_mats T) < 2 ^ 31).
  { destruct (proj1 O) as (j & Tj). destruct (proj2 (index_tape_grammar t (tape_tree src j))) as (s2 & E2); [exists src, j; auto|]. rewrite ET in E2. assert (ET2 : T = tape_tree src j) by congruence. rewrite ET2. unfold tape_tree. cbn [tt_mats].
    assert (Q : forall (l : list (Z * tmat)) acc, length (fold_mmput l acc) = (length l + length acc)%nat).
    { assert (Q1 : forall k (v : tmat) acc, length (mmput k v acc) = Datatypes.S (length acc)) by (intros k v acc; induction acc as [|[a0 w] r IH]; [reflexivity|]; cbn; destruct (k <? a0); cbn; [reflexivity|]; now rewrite IH).
      induction l as [|[k v] l IH]; intros acc; [reflexivity|]. cbn [fold_mmput]. rewrite IH, Q1. cbn [length]. lia. }
    destruct P as (P & _). unfold len in *. rewrite Q, map_length. cbn [length]. rewrite Nat.add_0_r. exact P. }
  destruct (C66_tape T i (mt_index t T s' ET) Ti ltac:(lia) Ni Hn R) as (C & D).
  destruct (proj2 C) as (yt' & Ey). { intros mat l x mf mt u El Ix Eu. exact (proj1 A (ex_intro _ yt (ex_intro _ s E)) mat l x mf mt u El Ix Eu). }
  exists yt'. split; [exact Ey|]. destruct (D _ Ey) as (Di & Dm). split.
  { rewrite Di. cbn [tptext]. rewrite lj_self by exact Li. rewrite Ti in Bi. injection Bi as ->. reflexivity. }
  intros mat. destruct (Bm mat) as (B1 & B2 & B3), (Dm mat) as (D1 & D2 & D3). split; [congruence|]. destruct (tape_has T mat) eqn:Hh.
  - destruct (B3 eq_refl) as (l & El & F1), (D3 eq_refl) as (l' & El' & F2). rewrite El in El'. injection El' as <-. clear - F1 F2. revert F2. generalize (ytape_material yt' mat). induction F1 as [|x y l r (S1 & S2 & S3 & S4) _ IH]; intros r' F2; inversion F2 as [|? y' ? r'' (U1 & U2 & U3 & U4) F2']; subst; constructor; auto.
    split; [congruence|]. intros mf mt. split; [rewrite <- S3, <- U3; reflexivity|]. intros v. rewrite S4, U4. reflexivity.
  - assert (Z1 : ytape_material yt mat = []) by (unfold ytape_has in B1; destruct (ytape_material yt mat); [reflexivity|cbn in B1; lia]). assert (Z2 : ytape_material yt' mat = []) by (unfold ytape_has in D1; destruct (ytape_material yt' mat); [reflexivity|cbn in D1; lia]). rewrite Z1, Z2. constructor.
Qed.
(** a file that cannot be opened throws; otherwise the tape in it is indexed *)
Theorem C66_from_file : from_file None = Throw EStd
  /\ forall t, (forall T, from_file (Some t) = Val T <-> exists s, index_tape t = Ok T s) /\ (from_file (Some t) = Undef <-> index_tape t = UB).
Proof. split; [reflexivity|]. intros t. unfold from_file, res_out. destruct (index_tape t) as [T' s| |]; split; try intros T; split; intros K; try discriminate; try (destruct K; discriminate); auto; [injection K as ->; eauto|destruct K as (? & K); injection K as -> _; reflexivity]. Qed.

(** ** the hypotheses are met *)
Lemma ex_ready t T s mat mf mt x : index_tape t = Ok T s -> tape_material T mat = Val [x] -> 0 < tm_mat x < 10000 -> mf <> 30 -> mf <> 32 -> mf <> 8 ->
  (forall a b u, mat_section x a b = Val u -> a = mf /\ b = mt /\ ts_mat u = tm_mat x) -> mat_hasMFMT x mf mt = true -> ready x.
Proof.
  intros E Em Hm N30 N32 N8 U H. split; [exact Hm|]. split; [eauto|]. split.
  - intros a b u Ku. destruct (U a b u Ku) as (-> & -> & K). split; [exact K|]. destruct (proj2 (C66_indexed t T s E) mat [x] x mf mt u Em (or_introl eq_refl) Ku) as (G & _). split; [exact G|]. split; [exact N30|]. intros Q. congruence.
  - intros n K _. apply section_has in K. destruct K as (u & K). destruct (U _ _ _ K) as (K' & _). congruence.
Qed.
(** the reader does not accept this text (two SEND records), parsing its index does *)
Definition ex_tree : ttape := match index_tape two_sends with Ok T _ => T | _ => mkttape None [] end.
Definition ex_mat : tmat := snd (hd (0, mktmat 0 []) (tt_mats ex_tree)).
Lemma ex_tree_ok : exists s, index_tape two_sends = Ok ex_tree s.
Proof. eexists. unfold ex_tree. vm_compute. reflexivity. Qed.
Lemma ex_tree_mats : tt_mats ex_tree = [(9228, ex_mat)].
Proof. vm_compute. reflexivity. Qed.
Lemma ex_mat_files : exists f u, tm_files ex_mat = [(3, f)] /\ tf_secs f = [(1, u)] /\ ts_mat u = 9228 /\ tm_mat ex_mat = 9228.
Proof. exists (snd (hd (0, mktfile 0 0 []) (tm_files ex_mat))), (snd (hd (0, mktsec 0 0 0 []) (tf_secs (snd (hd (0, mktfile 0 0 []) (tm_files ex_mat)))))). split; [vm_compute; reflexivity|]. split; [vm_compute; reflexivity|]. split; vm_compute; reflexivity. Qed.
Definition sees_one (o : out ytape) : bool := match o with Val yt => match ytape_material yt 9228 with [y] => ymat_hasMFMT y 3 1 | _ => false end | _ => false end.
Lemma ex_tree_parse : sees_one (tape_parse ex_tree) = true.
Proof. vm_compute. reflexivity. Qed.
Example C66_example : exists s e, index_tape two_sends = Ok ex_tree s /\ typed two_sends = Err EStd e
  /\ (forall mat l x, tape_material ex_tree mat = Val l -> In x l -> ready x)
  /\ exists yt y, tape_parse ex_tree = Val yt /\ ytape_material yt 9228 = [y] /\ ymat_hasMFMT y 3 1 = true.
Proof.
  destruct ex_tree_ok as (s & E). do 2 eexists. split; [exact E|]. split; [vm_compute; reflexivity|]. split.
  - assert (Km := ex_tree_mats). assert (Kl : tape_material ex_tree 9228 = Val [ex_mat]) by (unfold tape_material, tape_has, tape_number; rewrite Km; reflexivity).
    intros mat l x El Ix. unfold tape_material, tape_has, tape_number in El. rewrite Km in El. unfold mmrange in El. cbn [filter map fst snd] in El.
    destruct (Z.eqb_spec 9228 mat) as [<-|N]; [|discriminate El]. cbn [filter map snd length] in El. injection El as <-. destruct Ix as [<-|[]].
    destruct ex_mat_files as (f & u & K1 & K2 & K3 & K4).
    apply (ex_ready two_sends ex_tree s 9228 3 1 ex_mat E Kl); try lia.
    + intros a b v. unfold mat_section, mat_file, file_section, at_. rewrite K1. cbn [mfind]. destruct (Z.eqb_spec a 3) as [->|]; [|discriminate]. cbn [obind]. rewrite K2. cbn [mfind]. destruct (Z.eqb_spec b 1) as [->|]; [|discriminate].
      intros Kv. injection Kv as <-. rewrite K3, K4. auto.
    + unfold mat_hasMFMT, file_has, mhas. rewrite K1. cbn [mfind]. change (3 =? 3) with true. cbn iota. rewrite K2. reflexivity.
  - assert (K := ex_tree_parse). destruct (tape_parse ex_tree) as [yt| |]; [|discriminate K|discriminate K]. exists yt. unfold sees_one in K. destruct (ytape_material yt 9228) as [|y [|]]; try discriminate K. exists y. auto.
Qed.
(** ** what is not kept: a material without sections is not in the content *)
Definition ex_tree_empty : ttape := tape_insert (mktmat 9437 []) ex_tree.
Theorem C66_empty_material_refuted : made_tape ex_tree_empty /\ tape_has ex_tree_empty 9437 = true
  /\ exists yt, tape_parse ex_tree_empty = Val yt /\ ytape_has yt 9437 = false /\ ytape_has yt 9228 = true.
Proof.
  split; [destruct ex_tree_ok as (s & E); apply mt_insert; [constructor|exact (mt_index _ _ _ E)]|]. split; [vm_compute; reflexivity|].
  assert (K : match tape_parse ex_tree_empty with Val yt => negb (ytape_has yt 9437) && ytape_has yt 9228 | _ => false end = true) by (vm_compute; reflexivity).
  destruct (tape_parse ex_tree_empty) as [yt| |]; [|discriminate K|discriminate K]. exists yt. apply andb_true_iff in K. destruct K as (K1 & K2). apply negb_true_iff in K1. auto.
Qed.
