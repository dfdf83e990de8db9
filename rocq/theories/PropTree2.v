(** PropTree2.v -- indexing canonical tapes loses nothing (C18); what indexing
    tolerates although it should not (C28). *)
From Coq Require Import QArith ZifyBool String.
From Verif Require Import Base Disco DiscoProofs Records RecordProofs RecordRT RecordSound Spec LineFacts
  Normal Tree TreeSpec TreeProofs TreeGrammar TreeMaps PropRecords PropRecords3 PropTree.
Open Scope Z_scope.
Open Scope list_scope.
Notation length := List.length.

(** ** C18 *)
(** the FEND, MEND and TEND lines as the library writes them: blanks, MAT, MF = 0,
    MT = 0 right-justified in their columns, five blanks *)
Definition canonical_end (mat : Z) : text :=
  blanks 66 ++ right_justified 4 mat ++ right_justified 2 0 ++ right_justified 3 0 ++ blanks 5.
(** single end records; ascending section, file and material numbers *)
Definition canonical_file (f : file_src) : Prop :=
  Forall (fun s => x_sends s = []) (x_secs f) /\ x_fends f = [canonical_end (f_mat f)]
  /\ ascending Z.lt (map x_mt (x_secs f)) /\ 0 < f_mat f < 10000.
Definition canonical_mat (m : mat_src) : Prop :=
  Forall canonical_file (x_files m) /\ x_mends m = [canonical_end 0]
  /\ ascending Z.lt (map f_mf (x_files m)).
(** the identification line holds 66 characters and zeros *)
Definition canonical_tape (t : tape_src) : Prop :=
  (exists c, length c = 66%nat /\
     x_tpid t = c ++ right_justified 4 0 ++ right_justified 2 0 ++ right_justified 3 0 ++ blanks 5)
  /\ Forall canonical_mat (x_mats t) /\ x_tend t = canonical_end (-1)
  /\ ascending Z.le (map m_mat (x_mats t)).

Lemma blanks_app a b : blanks a ++ blanks b = blanks (a + b).
Proof. unfold blanks. now rewrite repeat_app. Qed.
Lemma pr_end mat : in_cols 4 mat -> pr_sdiv (mksdiv zero_cont mat 0 0) = canonical_end mat ++ [LF].
Proof.
  intros H. unfold pr_sdiv. replace (is_head _) with false by reflexivity. cbn [smat smf smt].
  assert (F := in_cols_fits 4 mat ltac:(lia) H). unfold fits in F. apply Nat.leb_le in F.
  assert (E : pr_int 70 mat = blanks 66 ++ right_justified 4 mat).
  { unfold pr_int, rj, right_justified. rewrite app_assoc, blanks_app. do 2 f_equal. lia. }
  rewrite E. unfold canonical_end, right_justified, pr_int, rj, pr_col. now rewrite <- !app_assoc.
Qed.
Lemma canon_noLF mat : in_cols 4 mat -> noLF (canonical_end mat).
Proof.
  intros H. unfold canonical_end. repeat (apply noLF_app; split); auto using noLF_blanks, show_noLF.
Qed.
Lemma canon_div mat : in_cols 4 mat -> -1 <= mat -> division_line (canonical_end mat) (mksdiv zero_cont mat 0 0).
Proof.
  intros H Hm. assert (F := in_cols_fits 4 mat ltac:(lia) H).
  assert (E : rd_sdiv (mkst (pr_sdiv (mksdiv zero_cont mat 0 0) ++ []) 0) = Ok (mksdiv zero_cont mat 0 0) (mkst [] (0 + 1))).
  { apply reads_sdiv; [|now right]. split; [exact okcont_zero|]. repeat split; cbn [smat smf smt]; auto; lia. }
  apply div_at_inv in E. destruct E as (l & N & D). cbn [buf] in N.
  rewrite pr_end, app_nil_r in N by exact H. rewrite next_line_app in N by now apply canon_noLF. injection N as <-. exact D.
Qed.

Lemma oconcat_val {A} (f : A -> pout) (g : A -> text) l : Forall (fun a => f a = Val (g a)) l ->
  oconcat f l = Val (flat_map g l).
Proof. unfold oconcat. induction 1 as [|a l E _ IH]; [reflexivity|]. cbn. now rewrite E, IH. Qed.
Lemma sec_lines_text s : lines_text (sec_lines s) <> [].
Proof. unfold sec_lines. rewrite lines_cons'. destruct (x_head s); discriminate. Qed.
Lemma lines_flat {A} (g : A -> list text) l : lines_text (flat_map g l) = flat_map (fun a => lines_text (g a)) l.
Proof. induction l as [|a l IH]; [reflexivity|]. cbn. now rewrite lines_app, IH. Qed.
Lemma flat_map_map {A B C} (g : B -> list C) (h : A -> B) l : flat_map g (map h l) = flat_map (fun a => g (h a)) l.
Proof. induction l as [|a l IH]; [reflexivity|]. cbn. now rewrite IH. Qed.
Lemma flat_map_ext' {A B} (g h : A -> list B) l : Forall (fun a => g a = h a) l -> flat_map g l = flat_map h l.
Proof. induction 1 as [|a l E _ IH]; [reflexivity|]. cbn. now rewrite E, IH. Qed.
Lemma lines_one l : lines_text [l] = l ++ [LF].
Proof. unfold lines_text. cbn [flat_map]. apply app_nil_r. Qed.
Lemma close_val b e : b <> [] -> close (Val b) (Val e) = Val (b ++ e).
Proof. destruct b; [congruence|reflexivity]. Qed.

Lemma canon_file_content f : file_ok f -> canonical_file f -> file_content (file_tree f) = Val (lines_text (file_all f)).
Proof.
  intros (Hn & _) (Hs & Hf & Ha & Hm). unfold file_content, file_tree, file_all. cbn [tf_secs tf_mat].
  rewrite (fold_place_asc (map sec_entry (x_secs f)) []) by (cbn [app]; rewrite map_map; exact Ha). cbn [app].
  rewrite flat_map_map. cbn [snd sec_entry sec_tree ts_text].
  assert (E : flat_map (fun a => lines_text (sec_lines a)) (x_secs f) = lines_text (flat_map sec_all (x_secs f))).
  { rewrite lines_flat. apply flat_map_ext'. eapply Forall_impl; [|exact Hs]. intros s Es. unfold sec_all. now rewrite Es, app_nil_r. }
  rewrite E. unfold pr_FEND, FEND. replace (f_mat f <? 1) with false by lia. cbn [obind].
  rewrite pr_end by (unfold in_cols; cbn; lia). rewrite close_val.
  - now rewrite Hf, lines_app, lines_one.
  - rewrite <- E. destruct (x_secs f) as [|s l]; [congruence|]. cbn [flat_map]. pose proof (sec_lines_text s).
    destruct (lines_text (sec_lines s)); [congruence|intros K; discriminate K].
Qed.
Lemma file_all_ne f : file_ok f -> lines_text (file_all f) <> [].
Proof.
  intros (Hn & _). unfold file_all. destruct (x_secs f) as [|s l]; [congruence|]. cbn [flat_map]. unfold sec_all, sec_lines.
  cbn [app]. rewrite lines_cons'. destruct (x_head s); discriminate.
Qed.
Lemma canon_mat_content m : mat_ok m -> canonical_mat m -> mat_content (mat_tree m) = Val (lines_text (mat_all m)).
Proof.
  intros (Hn & Ho & _) (Hs & Hf & Ha). unfold mat_content, mat_tree, mat_all. cbn [tm_files tm_mat].
  rewrite (fold_place_asc (map file_entry (x_files m)) []) by (cbn [app]; rewrite map_map; exact Ha). cbn [app].
  assert (E : oconcat (fun p : Z * tfile => file_content (snd p)) (map file_entry (x_files m)) = Val (lines_text (flat_map file_all (x_files m)))).
  { rewrite lines_flat. clear -Ho Hs. induction (x_files m) as [|f l IH]; [reflexivity|].
    inversion Ho; inversion Hs; subst. unfold oconcat in *. cbn [map fold_right flat_map snd file_entry].
    rewrite canon_file_content, IH by assumption. reflexivity. }
  rewrite E. change (Val (pr_sdiv MEND)) with (Val (pr_sdiv (mksdiv zero_cont 0 0 0))).
  rewrite pr_end by (unfold in_cols; cbn; lia). rewrite close_val.
  - now rewrite Hf, lines_app, lines_one.
  - destruct (x_files m) as [|s l]; [congruence|]. inversion Ho; subst. cbn [flat_map]. rewrite lines_app.
    pose proof (file_all_ne s H1). destruct (lines_text (file_all s)); [congruence|discriminate].
Qed.
Lemma canon_tail0 : pr_tail 0 0 0 = (right_justified 4 0 ++ right_justified 2 0 ++ right_justified 3 0 ++ blanks 5) ++ [LF].
Proof. reflexivity. Qed.
Lemma lj_self w c : length c = w -> lj w c = c.
Proof. intros <-. unfold lj. rewrite Nat.sub_diag. apply app_nil_r. Qed.

Theorem C18_tape : forall src, tape_ok src -> canonical_tape src ->
  exists T s, index_tape (lines_text (tape_all src)) = Ok T s
              /\ tape_content T = Val (lines_text (tape_all src)).
Proof.
  intros src H ((c & Lc & Ec) & Hm & He & Ha). destruct (proj1 H) as (i & Ti).
  assert (Tt : tape_text src (lines_text (tape_all src))).
  { exists (lines_text [x_tend src]). unfold tape_all. split.
    - rewrite app_comm_cons, lines_app. reflexivity.
    - unfold lines_text. cbn [flat_map]. rewrite app_nil_r, next_line_app; [reflexivity|]. apply H. }
  destruct (proj2 (index_tape_grammar (lines_text (tape_all src)) (tape_tree src i))) as (s & E); [eauto 6|].
  exists (tape_tree src i), s. split; [exact E|]. unfold tape_content, tape_tree. cbn [tt_tpid tt_mats].
  rewrite (fold_mmput_asc (map mat_entry (x_mats src)) []) by (cbn [app]; rewrite map_map; exact Ha). cbn [app].
  assert (Em : oconcat (fun p : Z * tmat => mat_content (snd p)) (map mat_entry (x_mats src)) = Val (lines_text (flat_map mat_all (x_mats src)))).
  { rewrite lines_flat. destruct H as (_ & _ & Ho & _). clear -Ho Hm. induction (x_mats src) as [|f l IH]; [reflexivity|].
    inversion Ho; inversion Hm; subst. unfold oconcat in *. cbn [map fold_right flat_map snd mat_entry].
    rewrite canon_mat_content, IH by assumption. reflexivity. }
  rewrite Em. unfold oapp. cbn [obind].
  assert (Et : pr_tpid i 0 0 0 = x_tpid src ++ [LF]).
  { destruct Ti as [Ti _]. unfold pr_tpid. rewrite Ti, Ec. unfold col. change (skipn 0 ?x) with x.
    rewrite firstn_app, Lc. change (66 - 66)%nat with 0%nat. rewrite firstn_O, app_nil_r, firstn_all2 by lia.
    rewrite !(lj_self 66 c) by lia. rewrite canon_tail0. now rewrite <- !app_assoc. }
  rewrite Et. change (Val (pr_sdiv TEND)) with (Val (pr_sdiv (mksdiv zero_cont (-1) 0 0))).
  rewrite pr_end by (unfold in_cols; cbn; lia). rewrite close_val.
  - f_equal. unfold tape_all. rewrite lines_cons', lines_app, lines_one, He, <- !app_assoc. reflexivity.
  - destruct (x_tpid src); discriminate.
Qed.

(** a single material or file as a text of its own, as made by toMaterial and toFile *)
Lemma nil_div : div_at [] (mksdiv zero_cont 0 0 0) [].
Proof. exists []. split; [reflexivity|]. unfold division_line, cont_in_columns, carries. rewrite !col_nil. cbn. repeat split; lia. Qed.

Lemma last_fend_items mat mf secs : Forall sec_ok secs -> Forall (fun s => x_mf s = mf) secs -> 0 < mat < 10000 ->
  items sec_at smt (in_mf mf) is_send is_fend (lines_text (flat_map sec_all secs ++ [canonical_end mat])) (map sec_entry secs) [].
Proof.
  intros Hs Hm H. assert (C : in_cols 4 mat) by (unfold in_cols; cbn; lia).
  assert (D : div_at (lines_text [canonical_end mat]) (mksdiv zero_cont mat 0 0) []).
  { unfold lines_text. cbn [flat_map]. rewrite app_nil_r. apply div_at_line; [now apply canon_noLF|apply canon_div; [exact C|lia]]. }
  rewrite lines_app. eapply file_items_end; eauto.
  - unfold lines_text. cbn [flat_map]. destruct (canonical_end mat); discriminate.
  - eapply items_close; eauto. unfold is_fend, is_fend_permissive, is_send_permissive. cbn. lia.
Qed.
Lemma index_file_src : forall f, file_ok f -> canonical_file f ->
  exists s, index_file (lines_text (file_all f)) = Ok (file_tree f) s.
Proof.
  intros f Ok C. pose proof Ok as (Hn & Hs & Hm & Nd & Hf & Nf). pose proof C as (Cs & Cf & Ca & Cm).
  destruct (file_first f [] (file_ok_shape _ Ok)) as (d & r & D & Hh & E1 & E2). rewrite app_nil_r in D.
  assert (A : file_at d (lines_text (file_all f)) (file_tree f) []).
  { split; [eauto|]. exists (map sec_entry (x_secs f)). rewrite E2, E1. split; [|split; [|reflexivity]].
    - unfold file_all. rewrite Cf. apply last_fend_items; auto.
    - apply (fresh_nodup x_mt sec_tree _ Nd). }
  destruct (in_fwd _ _ file_inner _ _ _ _ _ (0 + 1) D Hh A) as (ln' & E).
  exists (mkst [] ln'). unfold index_file, bind. rewrite (div_at_fwd _ _ _ _ D). exact E.
Qed.
Theorem C18_file : forall f, file_ok f -> canonical_file f ->
  exists F s, index_file (lines_text (file_all f)) = Ok F s
              /\ tf_mat F = f_mat f /\ tf_mf F = f_mf f
              /\ file_content F = Val (lines_text (file_all f)).
Proof.
  intros f Ok C. destruct (index_file_src f Ok C) as (s & E). exists (file_tree f), s. split; [exact E|]. split; [reflexivity|]. split; [reflexivity|now apply canon_file_content].
Qed.
Lemma index_mat_src : forall m, mat_ok m -> canonical_mat m ->
  exists s, index_mat (lines_text (mat_all m)) = Ok (mat_tree m) s.
Proof.
  intros m Ok C. pose proof Ok as (Hn & Hs & Hm & Nd & Hf & Nf). pose proof C as (Cs & Cf & Ca).
  destruct (mat_first m [] (mat_ok_shape _ Ok)) as (d & r & D & Hh & E1 & E2). rewrite app_nil_r in D.
  assert (A : mat_at d (lines_text (mat_all m)) (mat_tree m) []).
  { split; [eauto|]. exists (map file_entry (x_files m)). rewrite E1. split; [|split; [|reflexivity]].
    - unfold mat_all. rewrite Cf, lines_app.
      assert (D' : div_at (lines_text [canonical_end 0]) (mksdiv zero_cont 0 0 0) []).
      { unfold lines_text. cbn [flat_map]. rewrite app_nil_r. apply div_at_line; [now apply canon_noLF|apply canon_div; [split; reflexivity|lia]]. }
      refine (mat_items_end file_at file_ok file_tree file_ok_shape file_fwd (m_mat m) (x_files m) _ _ _ _ Hs Hm (nodup_fsep _ Nd) D' _ _ _ _ _); try reflexivity.
      + unfold lines_text. cbn [flat_map]. destruct (canonical_end 0); discriminate.
      + eapply items_close; eauto.
    - apply (fresh_nodup f_mf file_tree _ Nd). }
  destruct (in_fwd _ _ mat_inner _ _ _ _ _ (0 + 1) D Hh A) as (ln' & E).
  exists (mkst [] ln'). unfold index_mat, bind. rewrite (div_at_fwd _ _ _ _ D). exact E.
Qed.
Theorem C18_material : forall m, mat_ok m -> canonical_mat m ->
  exists X s, index_mat (lines_text (mat_all m)) = Ok X s
              /\ tm_mat X = m_mat m
              /\ mat_content X = Val (lines_text (mat_all m)).
Proof.
  intros m Ok C. destruct (index_mat_src m Ok C) as (s & E). exists (mat_tree m), s. split; [exact E|]. split; [reflexivity|now apply canon_mat_content].
Qed.

(** ** A concrete tape *)
Definition txt : string -> text := list_ascii_of_string.
Fixpoint no_lf (t : text) : bool :=
  match t with [] => true | c :: t' => negb (Ascii.eqb c LF) && no_lf t' end.
Lemma no_lf_ok t : no_lf t = true -> noLF t.
Proof.
  induction t as [|c t IH]; intros H K; [exact K|]. cbn in H. apply andb_prop in H. destruct H as [H1 H2], K as [E|K].
  - subst. discriminate.
  - now apply IH.
Qed.
(** evaluation of the reader on a concrete line *)
Definition sees (p : sdiv -> bool) (l : text) : bool :=
  no_lf l && match rd_sdiv (mkst (l ++ [LF]) 0) with Ok d _ => p d | _ => false end.
Lemma sees_ok p l : sees p l = true -> noLF l /\ exists d, division_line l d /\ p d = true.
Proof.
  intros H. apply andb_prop in H. destruct H as [H1 H2]. apply no_lf_ok in H1. split; [exact H1|].
  destruct (rd_sdiv (mkst (l ++ [LF]) 0)) as [d s| |] eqn:E; try discriminate. exists d. split; [|exact H2].
  apply div_at_inv in E. destruct E as (l' & N & D). rewrite next_line_app in N by exact H1. injection N as <- _. exact D.
Qed.
Definition sees_head mat mf mt := sees (fun d => is_head d && (smat d =? mat) && (smf d =? mf) && (smt d =? mt)).
Lemma head_by mat mf mt l : sees_head mat mf mt l = true -> noLF l /\ head_line mat mf mt l.
Proof.
  intros H. apply sees_ok in H. destruct H as (N & d & D & H). split; [exact N|]. apply head_iff. exists d. split; [exact D|]. cbv beta in H. rewrite !andb_true_iff in H. intuition lia.
Qed.
Definition sees_tail (p : Z -> Z -> Z -> bool) (l : text) : bool :=
  no_lf l && match read_int (col 66 4 l), read_int (col 70 2 l), read_int (col 72 3 l) with
             | Some a, Some b, Some c => p a b c | _, _, _ => false end.
Lemma tail_by p l : sees_tail p l = true -> noLF l /\ exists a b c, carries a b c l /\ p a b c = true.
Proof.
  intros H. apply andb_prop in H. destruct H as [H1 H2]. apply no_lf_ok in H1. split; [exact H1|].
  destruct (read_int (col 66 4 l)) as [a|] eqn:E1; [|discriminate].
  destruct (read_int (col 70 2 l)) as [b|] eqn:E2; [|discriminate].
  destruct (read_int (col 72 3 l)) as [c|] eqn:E3; [|discriminate]. exists a, b, c. split; [split; auto|exact H2].
Qed.
Lemma body_by l : sees_tail (fun _ _ c => negb (c =? 0)) l = true -> noLF l /\ body_line l.
Proof. intros H. apply tail_by in H. destruct H as (N & a & b & c & C & H). cbv beta in H. split; [exact N|]. exists a, b, c. split; [exact C|lia]. Qed.
Lemma last_by l : sees_tail (fun _ _ c => c =? 0) l = true -> noLF l /\ last_line l.
Proof. intros H. apply tail_by in H. destruct H as (N & a & b & c & C & H). cbv beta in H. split; [exact N|]. exists a, b. replace 0 with c by lia. exact C. Qed.
Definition sec_check (s : sec_src) : bool :=
  sees_head (x_mat s) (x_mf s) (x_mt s) (x_head s) && forallb (sees_tail (fun _ _ c => negb (c =? 0))) (x_body s)
  && sees_tail (fun _ _ c => c =? 0) (x_last s) && forallb (sees is_send) (x_sends s).
Lemma forallb_Forall {A} (p : A -> bool) (P : A -> Prop) l : (forall a, p a = true -> P a) -> forallb p l = true -> Forall P l.
Proof. intros H. rewrite forallb_forall, Forall_forall. auto. Qed.
Lemma sec_by s : sec_check s = true -> sec_ok s.
Proof.
  unfold sec_check. rewrite !andb_true_iff. intros (((A & B) & C) & D).
  destruct (head_by _ _ _ _ A) as [A1 A2]. destruct (last_by _ C) as [C1 C2].
  split; [exact A2|]. split; [eapply forallb_Forall; [|exact B]; intros a; apply body_by|]. split; [exact C2|]. split.
  - eapply forallb_Forall; [|exact D]. intros a K. apply send_iff. apply sees_ok in K. tauto.
  - unfold sec_all, sec_lines. apply Forall_app. split; [constructor; [exact A1|apply Forall_app; split; [|constructor; [exact C1|constructor]]]|].
    + eapply forallb_Forall; [|exact B]. intros a K. now apply body_by in K.
    + eapply forallb_Forall; [|exact D]. intros a K. now apply sees_ok in K.
Qed.
Lemma ends_by (p : sdiv -> bool) (P : text -> Prop) es : (forall l, P l <-> exists d, division_line l d /\ p d = true) ->
  forallb (sees p) es = true -> Forall P es /\ Forall noLF es.
Proof.
  intros HP H. split; (eapply forallb_Forall; [|exact H]); intros a K; apply sees_ok in K.
  - apply HP. tauto.
  - tauto.
Qed.
Fixpoint distinct (l : list Z) : bool :=
  match l with [] => true | a :: l' => negb (existsb (Z.eqb a) l') && distinct l' end.
Lemma distinct_ok l : distinct l = true -> NoDup l.
Proof.
  induction l as [|a l IH]; intros H; [constructor|]. cbn in H. apply andb_prop in H. destruct H as [H1 H2].
  constructor; [|auto]. intros K. apply negb_true_iff in H1. assert (existsb (Z.eqb a) l = true); [|congruence].
  apply existsb_exists. exists a. split; [exact K|lia].
Qed.
Definition file_check (f : file_src) : bool :=
  negb (match x_secs f with [] => true | _ => false end) && forallb sec_check (x_secs f)
  && forallb (fun s => x_mf s =? f_mf f) (x_secs f) && distinct (map x_mt (x_secs f)) && forallb (sees is_fend) (x_fends f).
Lemma file_by f : file_check f = true -> file_ok f.
Proof.
  unfold file_check. rewrite !andb_true_iff. intros ((((A & B) & C) & D) & E).
  split; [destruct (x_secs f); [discriminate A|discriminate]|]. split; [eapply forallb_Forall; [apply sec_by|exact B]|].
  split; [eapply forallb_Forall; [|exact C]; intros s; cbv beta; lia|]. split; [now apply distinct_ok|].
  apply (ends_by _ _ _ fend_iff E).
Qed.
Definition mat_check (m : mat_src) : bool :=
  negb (match x_files m with [] => true | _ => false end) && forallb file_check (x_files m)
  && forallb (fun f => f_mat f =? m_mat m) (x_files m) && distinct (map f_mf (x_files m)) && forallb (sees is_mend) (x_mends m).
Lemma mat_by m : mat_check m = true -> mat_ok m.
Proof.
  unfold mat_check. rewrite !andb_true_iff. intros ((((A & B) & C) & D) & E).
  split; [destruct (x_files m); [discriminate A|discriminate]|]. split; [eapply forallb_Forall; [apply file_by|exact B]|].
  split; [eapply forallb_Forall; [|exact C]; intros s; cbv beta; lia|]. split; [now apply distinct_ok|].
  apply (ends_by _ _ _ mend_iff E).
Qed.
Definition tape_check (t : tape_src) : bool :=
  sees_tail (fun _ b c => (b =? 0) && (c =? 0)) (x_tpid t) && forallb mat_check (x_mats t) && sees is_tend (x_tend t).
Lemma tape_by t : tape_check t = true -> separated_all (x_mats t) -> tape_ok t.
Proof.
  unfold tape_check. rewrite !andb_true_iff. intros ((A & B) & C) Sp. apply tail_by in A. destruct A as (N & a & b & c & K & H). cbv beta in H.
  apply sees_ok in C. split; [|split; [exact N|split; [|split; [exact Sp|split; [|tauto]]]]].
  - exists (mktpid (lj 66 (col 0 66 (x_tpid t))) a). split; [reflexivity|]. replace b with 0 in K by lia. replace c with 0 in K by lia. exact K.
  - eapply forallb_Forall; [apply mat_by|exact B].
  - apply tend_iff. tauto.
Qed.

Open Scope string_scope.
Definition L_tpid := txt "a tape with two sections in one file                                 0 0  0     ".
Definition L_head1 := txt " 1.001000+3 9.991673-1          0          0          0          0 125 3  1    1".
Definition L_body := txt " 0.000000+0 0.000000+0          0          0          1          2 125 3  1    2".
Definition L_send := txt "                                                                   125 3  099999".
Definition L_head2 := txt " 1.001000+3 9.991673-1          0          0          0          0 125 3  2    1".
Definition L_head3 := txt " 1.001000+3 9.991673-1          0          0          0          0 125 4  2    1".
Close Scope string_scope.
Definition ex_sec1 := mkss 125 3 1 L_head1 [L_body; L_body] L_send [].
Definition ex_sec2 := mkss 125 3 2 L_head2 [L_body] L_send [].
Definition ex_sec3 := mkss 125 4 2 L_head3 [L_body] L_send [].
Definition ex_file3 := mkfs [ex_sec1; ex_sec2] [canonical_end 125].
Definition ex_file4 := mkfs [ex_sec3] [canonical_end 125].
Definition ex_mat := mkms [ex_file3; ex_file4] [canonical_end 0].
Definition ex_tape := mkts L_tpid [ex_mat; ex_mat] (canonical_end (-1)).

(** a tape with two materials of the same MAT; every hypothesis of C18, C19, C29 and C43 holds *)
Example C18_example : tape_ok ex_tape /\ canonical_tape ex_tape.
Proof.
  split.
  - apply tape_by; [vm_compute; reflexivity|]. split; [|exact I]. discriminate.
  - split; [exists (firstn 66 L_tpid); split; reflexivity|]. cbn [x_mats ex_tape].
    assert (canonical_mat ex_mat).
    { split; [|split; [reflexivity|vm_compute; auto]]. repeat constructor; vm_compute; auto. }
    split; [auto|]. split; [reflexivity|]. vm_compute. split; [discriminate|exact I].
Qed.
(** with redundant end records, and without the FEND and MEND that can be missing *)
Definition L_head5 : text := txt " 1.001000+3 9.991673-1          0          0          0          0 126 3  2    1"%string.
Example C29_example :
  tape_ok (padded [L_send; L_send] [canonical_end 125] [canonical_end 0] ex_tape)
  /\ tape_ok (mkts L_tpid [mkms [mkfs [ex_sec1; ex_sec2] []; mkfs [ex_sec3] []] [];
                           mkms [mkfs [mkss 126 3 2 L_head5 [L_body] L_send []] []] []] (canonical_end (-1)))
  /\ Forall send_line [L_send; L_send].
Proof.
  split; [|split].
  - apply pad_tape; try exact (proj1 C18_example);
      [apply (ends_by _ _ _ send_iff)|apply (ends_by _ _ _ fend_iff)|apply (ends_by _ _ _ mend_iff)]; vm_compute; reflexivity.
  - apply tape_by; [vm_compute; reflexivity|]. split; [|exact I]. intros _. split; [discriminate|]. intros _. discriminate.
  - apply (ends_by _ _ _ send_iff). vm_compute. reflexivity.
Qed.

(** ** C28: what is accepted although it should not be *)
(** A section without SEND record: the FEND record that follows is taken for it,
    and the tape is accepted. *)
Lemma not_send l : sees_tail (fun _ b c => negb (c =? 0) || (b =? 0)) l = true -> ~ send_line l.
Proof.
  intros H. apply tail_by in H. destruct H as (_ & a & b & c & (C1 & C2 & C3) & H). cbv beta in H.
  intros (d & (_ & (K1 & K2 & K3) & _) & (_ & _ & _ & _ & _ & _ & E & _ & P)).
  rewrite C2 in K2. rewrite C3 in K3. injection K2 as ->. injection K3 as ->. lia.
Qed.
Theorem C28_missing_send_refuted : exists ls t T s,
  t = lines_text ls /\ Forall (fun l => ~ send_line l) ls
  /\ (exists l, In l ls /\ head_line 125 3 1 l)
  /\ index_tape t = Ok T s /\ tape_has T 125 = true.
Proof.
  pose (src := mkts L_tpid [mkms [mkfs [mkss 125 3 1 L_head1 [L_body] (canonical_end 125) []] []] [canonical_end 0]] (canonical_end (-1))).
  assert (H : tape_ok src) by (apply tape_by; [vm_compute; reflexivity|exact I]).
  assert (Ht : tape_text src (lines_text (tape_all src))).
  { exists (lines_text [x_tend src]). split; reflexivity. }
  destruct (C19_lookups src _ H Ht) as (T & s & E & L).
  exists (tape_all src), (lines_text (tape_all src)), T, s. split; [reflexivity|]. split; [|split; [|split; [exact E|]]].
  - eapply forallb_Forall; [apply not_send|vm_compute; reflexivity].
  - exists L_head1. split; [right; left; reflexivity|]. apply (head_by 125 3 1 L_head1). vm_compute. reflexivity.
  - specialize (L 125). cbv zeta in L. destruct L as (_ & L & _). apply L. discriminate.
Qed.
(** A section made from a text that consists of its HEAD record only is accepted. *)
Theorem C28_lone_head_refuted : forall h mat mf mt, head_line mat mf mt h -> noLF h ->
  exists s, index_sec (h ++ [LF]) = Ok (mktsec mat mf mt (h ++ [LF])) s.
Proof.
  intros h mat mf mt H N. apply head_iff in H. destruct H as (d & D & Hh & <- & <- & <-).
  assert (Dh : div_at (h ++ [LF]) d []) by now apply div_at_line.
  assert (B : block [] []) by (apply (block_end [] [] 0 0); [reflexivity|repeat split]).
  assert (A : sec_at d (h ++ [LF]) (mktsec (smat d) (smf d) (smt d) (h ++ [LF])) []).
  { exists []. split; [exact Dh|]. split; [exact B|]. f_equal. symmetry.
    rewrite <- (app_nil_r (h ++ [LF])) at 1. apply upto_app. }
  destruct (in_fwd _ _ section_inner _ _ _ _ _ (0 + 1) Dh Hh A) as (ln & E). exists (mkst [] ln).
  unfold index_sec, bind. rewrite (div_at_fwd _ _ _ _ Dh). exact E.
Qed.
