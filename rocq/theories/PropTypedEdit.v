(** PropTypedEdit.v -- C69: a tree edited with typed sections, files and materials. *)
From Coq Require Import ZifyBool ZifyNat.
From Verif Require Import Base Disco Records RecordProofs PropSec451 Spec LineFacts Sections SecSpec SectionProofs Sec451 Tree TreeSpec TreeProofs TreeGrammar TreeMaps PropTree PropTree2 EditSpec PropEdit PropEdit2
  Typed TypedSpec TypedProofs PropTyped PropTyped2 PropAgree Classes PropClasses PropAgree2 Parse PropParse TypedEdit.
Open Scope Z_scope.

(** ** specification: a material as typed sections *)
(** its number, the files it has and the typed section under each (MF, MT) *)
Record tview := mktview { t_mat : Z; t_has : Z -> bool; t_sec : Z -> Z -> option ysection }.
(** every section of the tree parses as the section of the view, and there are no others *)
Definition shows_typed (m : tmat) (v : tview) : Prop :=
  tm_mat m = t_mat v
  /\ (forall mf, mat_hasMF m mf = t_has v mf)
  /\ forall mf mt, match t_sec v mf mt with
                   | Some y => mat_hasMFMT m mf mt = true /\ exists s, mat_section m mf mt = Val s /\ parsed_as s y
                   | None => mat_hasMFMT m mf mt = false /\ mat_section m mf mt = Throw EOor
                   end.
(** the numbers of a typed section *)
Definition MF_of (y : ysection) : Z := k_mf (skind_of (projT1 y)).
Definition MT_of (y : ysection) : Z := s_mt (projT2 y).
Definition good_section (y : ysection) : Prop := good_ysec sclass sbody skind_of lib_rep lib_inv y.

Inductive yop :=
| YInsert (x : ysection) | YPut (x : ysection) | YInsertFile (f : yfile) | YPutFile (f : yfile)
| YRemoveFile (mf : Z) | YRemove (mf mt : Z)
| YInFileInsert (mf : Z) (x : ysection) | YInFilePut (mf : Z) (x : ysection).
Definition yop_ok (o : yop) : Prop :=
  match o with
  | YInsert x | YPut x | YInFileInsert _ x | YInFilePut _ x => good_section x
  | YInsertFile f | YPutFile f => good_file f
  | _ => True
  end.
(** what the program does *)
Definition yop_run (o : yop) (m : tmat) : out (tmat * option exn) :=
  match o with
  | YInsert x => mat_insert_typed x m
  | YPut x => mat_put_typed x m
  | YInsertFile f => mat_insert_yfile f m
  | YPutFile f => mat_put_yfile f m
  | YRemoveFile mf => Val (mat_remove mf m, None)
  | YRemove mf mt => Val (mat_remove_sec mf mt m, None)
  | YInFileInsert mf x => in_file_typed mf (file_insert_typed x) m
  | YInFilePut mf x => in_file_typed mf (file_put_typed x) m
  end.
Fixpoint yrun (l : list yop) (m : tmat) : out (tmat * list (option exn)) :=
  match l with
  | [] => Val (m, [])
  | o :: l' => obind (yop_run o m) (fun r => obind (yrun l' (fst r)) (fun q => Val (fst q, snd r :: snd q)))
  end.
(** what is expected *)
Definition t_put (x : ysection) (v : tview) : tview :=
  mktview (t_mat v) (set1 (t_has v) (MF_of x) true) (set2 (t_sec v) (MF_of x) (MT_of x) (Some x)).
Definition t_put_file (f : yfile) (v : tview) : tview :=
  mktview (t_mat v) (set1 (t_has v) (yf_mf f) true) (set1 (t_sec v) (yf_mf f) (fun mt => match yfile_section f mt with Val x => Some x | _ => None end)).
Definition yop_spec (o : yop) (v : tview) : tview * option exn :=
  match o with
  | YPut x => (t_put x v, None)
  | YInsert x => match t_sec v (MF_of x) (MT_of x) with Some _ => (v, Some EStd) | None => (t_put x v, None) end
  | YPutFile f => (t_put_file f v, None)
  | YInsertFile f => if t_has v (yf_mf f) then (v, Some EStd) else (t_put_file f v, None)
  | YRemoveFile mf => (mktview (t_mat v) (set1 (t_has v) mf false) (set1 (t_sec v) mf (fun _ => None)), None)
  | YRemove mf mt => (mktview (t_mat v) (t_has v) (set2 (t_sec v) mf mt None), None)
  | YInFilePut mf x => if negb (t_has v mf) then (v, Some EOor) else if MF_of x =? mf then (t_put x v, None) else (v, Some EStd)
  | YInFileInsert mf x =>
      if negb (t_has v mf) then (v, Some EOor)
      else match t_sec v mf (MT_of x) with
           | Some _ => (v, Some EStd)
           | None => if MF_of x =? mf then (t_put x v, None) else (v, Some EStd)
           end
  end.

(** ** proofs *)
Lemma src_text e : sec_ok e -> section_text (sec_tree e).
Proof.
  intros (A1 & A2 & A3 & _ & A5). exists (x_head e), (x_body e), (x_last e). split; [reflexivity|]. split; [exact A1|]. split; [exact A2|]. split; [exact A3|].
  unfold sec_all, sec_lines in A5. apply Forall_app in A5. apply A5.
Qed.
Lemma any_text x mat s : 0 < mat < 10000 -> good_section x -> any_section x mat = Val s -> section_text s /\ long_end (ts_text s).
Proof.
  intros Hm G E. destruct (printed_sec _ _ _ _ _ _ lib_table x mat (MF_of x) Hm eq_refl G) as (e & X1 & X2 & X3 & X4 & X5 & X6 & _).
  assert (sec_tree e = s); [|subst s; split; [now apply src_text|]; exists (lines_text (x_head e :: x_body e)), (x_last e);
    split; [unfold sec_tree, sec_lines; cbn [ts_text]; change (x_head e :: x_body e ++ [x_last e]) with ((x_head e :: x_body e) ++ [x_last e]); rewrite lines_app, (lines_cons' (x_last e)); reflexivity|];
    split; [destruct X5 as (_ & _ & _ & _ & N); unfold sec_all, sec_lines in N; rewrite Forall_forall in N; apply N; apply in_or_app; left; right; apply in_or_app; right; now left|];
    destruct X4 as (_ & ->); unfold SecSpec.send_line; rewrite app_length, blanks_length; lia]. unfold any_section, to_section in E. unfold pr_any in X6. change (k_mf (skind_of (projT1 x))) with (MF_of x) in *. rewrite X6 in E. cbn [obind] in E. injection E as <-.
  unfold sec_tree. rewrite X1, X2, X3. f_equal. unfold sec_all. rewrite (proj1 X4), app_nil_r. reflexivity.
Qed.
Lemma good_section_tree x mat : 0 < mat < 10000 -> good_section x ->
  exists s, any_section x mat = Val s /\ ts_mat s = mat /\ ts_mf s = MF_of x /\ ts_mt s = MT_of x /\ parsed_as s x /\ section_text s /\ long_end (ts_text s).
Proof.
  intros Hm G. assert (G0 := G). destruct x as [c b]. destruct G as (G1 & G2 & G3 & G4). cbn [projT1 projT2] in *.
  destruct (C30_section _ _ _ _ (lib_core c) b mat Hm (proj1 (tk_mf _ _ _ _ _ _ lib_table c)) G1 G2 G3 G4) as (s & E & A & B & C & _ & _ & P).
  exists s. split; [exact E|]. split; [exact A|]. split; [exact B|]. split; [exact C|]. split; [|exact (any_text _ _ _ Hm G0 E)]. split; cbn [projT1 projT2]; [|exact P].
  rewrite B, C. destruct G2 as (N & _). destruct (k_fix (skind_of c)) as [n|] eqn:F.
  - rewrite N. exact (tk_class _ _ _ _ _ _ lib_table c n F).
  - exact (tk_any _ _ _ _ _ _ lib_table c _ F).
Qed.
(** a view of typed sections over a view of tree sections *)
Definition text_of (mat : Z) (s : tsec) : Prop := ts_mat s = mat /\ section_text s.
Definition long_text (mat : Z) (s : tsec) : Prop := ts_mat s = mat /\ section_text s /\ long_end (ts_text s).
Definition any_tsec (mat : Z) (s : tsec) : Prop := True.
Definition over (b : Z -> tsec -> Prop) (v : view) (t : tview) : Prop :=
  v_mat v = t_mat t /\ (forall mf, v_has v mf = t_has t mf)
  /\ forall mf mt, match t_sec t mf mt, v_sec v mf mt with Some y, Some s => parsed_as s y /\ b (v_mat v) s | None, None => True | _, _ => False end.
Lemma shows_over m t : shows_typed m t <-> exists v, shows m v /\ over any_tsec v t.
Proof.
  split.
  - intros (A & B & C). exists (view_of m). split; [apply shows_self|]. split; [exact A|]. split; [exact B|]. intros mf mt. specialize (C mf mt).
    destruct (shows_self m) as (_ & _ & S3 & S4). specialize (S3 mf mt). specialize (S4 mf mt). destruct (t_sec t mf mt) as [y|].
    + destruct C as (C1 & s & C2 & C3). rewrite S4 in C2. destruct (v_sec (view_of m) mf mt); [|discriminate C2]. injection C2 as ->. split; [exact C3|exact Logic.I].
    + destruct C as (C1 & C2). rewrite S4 in C2. destruct (v_sec (view_of m) mf mt); [discriminate C2|exact Logic.I].
  - intros (v & (A & B & C & D) & (E & F & G)). split; [congruence|]. split; [intros mf; now rewrite B|]. intros mf mt. rewrite C, D. specialize (G mf mt).
    destruct (t_sec t mf mt), (v_sec v mf mt); try contradiction; [destruct G|]; eauto.
Qed.
(** every section of the tree begins with its own HEAD line, holds no end of a file and ends with a SEND line; it has the MAT number of the material *)
Definition has_texts (m : tmat) : Prop := forall mf mt s, mat_section m mf mt = Val s -> ts_mat s = tm_mat m /\ section_text s.
Definition has_Q (Q : Z -> tsec -> Prop) (m : tmat) : Prop := forall mf mt s, mat_section m mf mt = Val s -> Q (tm_mat m) s.
Lemma shows_over_Q Q m t : shows_typed m t /\ has_Q Q m <-> exists v, shows m v /\ over Q v t.
Proof.
  split.
  - intros (S & W). apply shows_over in S. destruct S as (v & S & (A & B & C)). exists v. split; [exact S|]. split; [exact A|]. split; [exact B|]. intros mf mt. specialize (C mf mt).
    destruct S as (S1 & _ & _ & S4). specialize (S4 mf mt). destruct (t_sec t mf mt), (v_sec v mf mt); try exact C. split; [apply C|]. rewrite <- S1. exact (W mf mt _ S4).
  - intros (v & S & O). split; [apply shows_over; exists v; split; [exact S|]; destruct O as (A & B & C); split; [exact A|]; split; [exact B|]; intros mf mt; specialize (C mf mt); destruct (t_sec t mf mt), (v_sec v mf mt); try exact C; split; [apply C|exact Logic.I]|].
    intros mf mt s E. destruct S as (S1 & _ & _ & S4). rewrite S4 in E. destruct O as (_ & _ & C). specialize (C mf mt). destruct (v_sec v mf mt); [|discriminate E]. injection E as ->. destruct (t_sec t mf mt); [|contradiction]. rewrite S1. now apply (proj2 C).
Qed.
(** and the text of a section of file 32 ends with a line of at least 66 columns *)
Definition has_long_texts (m : tmat) : Prop := has_texts m /\ forall mt s, mat_section m 32 mt = Val s -> long_end (ts_text s).
Lemma shows_over_text m t : shows_typed m t /\ has_texts m <-> exists v, shows m v /\ over text_of v t.
Proof. exact (shows_over_Q text_of m t). Qed.
Definition holds_printed (b : Z -> tsec -> Prop) : Prop := forall mat s, long_text mat s -> b mat s.
(** the file that toFile makes holds the sections of the typed file, and no others *)
Lemma good_file_tree f mat : 0 < mat < 10000 -> good_file f ->
  exists F, to_file skind_of f mat = Val F /\ tf_mat F = mat /\ tf_mf F = yf_mf f /\ made_file F
    /\ forall mt, match yfile_section f mt with
                  | Val x => exists s, file_section F mt = Val s /\ parsed_as s x /\ long_text mat s
                  | _ => file_section F mt = Throw EOor
                  end.
Proof.
  intros Hm G. destruct (printed_file2 _ _ _ _ _ _ lib_table f mat Hm G) as (s & F2 & S1 & S2 & S3 & S4 & P & _).
  destruct (index_file_src s S3 S4) as (s0 & E). exists (file_tree s). unfold to_file. rewrite P. cbn [obind]. rewrite E. cbn [res_out].
  split; [reflexivity|]. split; [exact S1|]. split; [exact S2|]. split; [exact (mf_index _ _ _ E)|].
  destruct G as (_ & As & Gs). intros mt. unfold yfile_section, file_section, at_, file_tree. cbn [tf_secs].
  assert (Nd : NoDup (map x_mt (x_secs s))) by (apply S3).
  rewrite (fold_place_find _ _ _ (fresh_nodup x_mt sec_tree _ Nd)). cbn [mfind].
  clear - F2 Gs Hm. induction F2 as [|p e l r H _ IH]; [reflexivity|]. apply Forall_cons_iff in Gs. destruct Gs as ((Ek & Ef & Gx) & Gs). specialize (IH Gs).
  destruct H as (X1 & X2 & X3 & X4 & X5 & X6 & _). cbn [map mfind fst]. destruct p as [k x]. cbn [fst snd] in *. rewrite Ek, X3.
  change (mfind mt (map sec_entry r)) with (mfind mt (map (fun a => (x_mt a, sec_tree a)) r)).
  destruct (mt =? y_mt x) eqn:Q.
  - destruct (good_section_tree x mat Hm Gx) as (u & U1 & U2 & U3 & U4 & U5 & U6). exists (sec_tree e). split; [reflexivity|].
    assert (sec_tree e = u). { unfold any_section, to_section in U1. unfold pr_any in X6. fold (MF_of x) in U1. rewrite <- Ef in X6. change (k_mf (skind_of (projT1 x))) with (MF_of x) in *. rewrite X6 in U1. cbn [obind] in U1. injection U1 as <-. unfold sec_tree. rewrite X1, X2, X3, <- Ef. f_equal. unfold sec_all. rewrite (proj1 X4), app_nil_r. reflexivity. }
    subst u. split; [exact U5|]. split; [exact U2|exact U6].
  - exact IH.
Qed.
Lemma in_file_same mf e (e' : edit tfile) m : (forall f, mfind mf (tm_files m) = Some f -> e f = Val (e' f)) -> in_file_typed mf e m = Val (in_file mf e' m).
Proof.
  intros H. unfold in_file_typed, in_file. destruct (mfind mf (tm_files m)) as [f|]; [|reflexivity]. rewrite (H f eq_refl). cbn [obind]. destruct (e' f). reflexivity.
Qed.
Lemma over_put b v t s x : holds_printed b -> over b v t -> ts_mat s = v_mat v -> ts_mf s = MF_of x -> ts_mt s = MT_of x -> parsed_as s x -> section_text s /\ long_end (ts_text s) -> over b (put_section s v) (t_put x t).
Proof.
  intros HP (A & B & C) E0 E1 E2 P Tx. split; [exact A|]. unfold put_section, t_put. cbn [v_has t_has v_sec t_sec v_mat t_mat]. rewrite E1, E2. split.
  - intros mf. unfold set1. destruct (mf =? MF_of x); [reflexivity|apply B].
  - intros mf mt. unfold set2. destruct ((mf =? MF_of x) && (mt =? MT_of x)); [split; [exact P|apply HP; split; [exact E0|exact Tx]]|apply C].
Qed.
Lemma over_some b v t mf mt : over b v t -> match v_sec v mf mt with Some _ => true | None => false end = match t_sec t mf mt with Some _ => true | None => false end.
Proof. intros (_ & _ & C). specialize (C mf mt). destruct (t_sec t mf mt), (v_sec v mf mt); tauto. Qed.
Lemma over_put_file b v t F f : holds_printed b -> over b v t -> tf_mf F = yf_mf f ->
  (forall mt, match yfile_section f mt with Val x => exists s, file_section F mt = Val s /\ parsed_as s x /\ long_text (v_mat v) s | _ => file_section F mt = Throw EOor end) -> over b (put_file F v) (t_put_file f t).
Proof.
  intros HP (A & B & C) E H. split; [exact A|]. unfold put_file, t_put_file. cbn [v_has t_has v_sec t_sec]. rewrite E. split.
  - intros mf. unfold set1. destruct (mf =? yf_mf f); [reflexivity|apply B].
  - intros mf mt. unfold set1. destruct (mf =? yf_mf f); [|apply C]. unfold file_view. specialize (H mt). destruct (yfile_section f mt) as [x| |].
    + destruct H as (s & -> & P & Q). split; [exact P|apply HP; exact Q].
    + now rewrite H.
    + now rewrite H.
Qed.
(** an edit of the tree that does what the typed edit does *)
Lemma typed_step o m : 0 < tm_mat m < 10000 -> wfm m -> yop_ok o ->
  exists q, op_ok q /\ yop_run o m = Val (mop_run q m)
    /\ forall b v t, holds_printed b -> v_mat v = tm_mat m -> over b v t -> over b (fst (mop_spec q v)) (fst (yop_spec o t)) /\ snd (mop_spec q v) = snd (yop_spec o t).
Proof.
  intros Hm W Ho. assert (Fm : forall mf f, mfind mf (tm_files m) = Some f -> tf_mat f = tm_mat m) by (intros mf f E; destruct (mfind_Forall _ _ _ _ (proj2 W) E) as (_ & K & _); exact K).
  destruct o as [x|x|f|f|mf|mf mt|mf x|mf x]; cbn [yop_ok yop_run yop_spec] in *.
  - destruct (good_section_tree x _ Hm Ho) as (s & E & E1 & E2 & E3 & P & Tx). exists (InsertSection s). split; [exact Logic.I|]. split; [unfold mat_insert_typed; rewrite E; reflexivity|].
    intros b v t HP Ev O. cbn [mop_spec]. replace (ts_mat s =? v_mat v) with true by lia. cbn [negb]. assert (K := over_some b v t (MF_of x) (MT_of x) O). rewrite E2, E3.
    destruct (v_sec v (MF_of x) (MT_of x)), (t_sec t (MF_of x) (MT_of x)); try discriminate K; cbn [fst snd]; (split; [|reflexivity]); [exact O|apply over_put; auto; congruence].
  - destruct (good_section_tree x _ Hm Ho) as (s & E & E1 & E2 & E3 & P & Tx). exists (PutSection s). split; [exact Logic.I|]. split; [unfold mat_put_typed; rewrite E; reflexivity|].
    intros b v t HP Ev O. cbn [mop_spec]. replace (ts_mat s =? v_mat v) with true by lia. cbn [negb fst snd]. split; [apply over_put; auto; congruence|reflexivity].
  - destruct (good_file_tree f _ Hm Ho) as (F & E & E1 & E2 & M & H). exists (InsertFile F). split; [exact M|]. split; [unfold mat_insert_yfile; rewrite E; reflexivity|].
    intros b v t HP Ev O. cbn [mop_spec]. replace (tf_mat F =? v_mat v) with true by lia. cbn [negb]. rewrite orb_false_r, E2. rewrite (proj1 (proj2 O)). destruct (t_has t (yf_mf f)); cbn [fst snd]; (split; [|reflexivity]); [exact O|apply over_put_file; auto; now rewrite Ev].
  - destruct (good_file_tree f _ Hm Ho) as (F & E & E1 & E2 & M & H). exists (PutFile F). split; [exact M|]. split; [unfold mat_put_yfile; rewrite E; reflexivity|].
    intros b v t HP Ev O. cbn [mop_spec]. replace (tf_mat F =? v_mat v) with true by lia. cbn [negb fst snd]. split; [apply over_put_file; auto; now rewrite Ev|reflexivity].
  - exists (RemoveFile mf). split; [exact Logic.I|]. split; [reflexivity|]. intros b v t HP Ev (A & B & C). cbn [mop_spec fst snd]. split; [|reflexivity]. split; [exact A|]. cbn [v_has t_has v_sec t_sec]. split; [intros k|intros k j]; unfold set1; destruct (k =? mf); auto; apply C.
  - exists (RemoveSection mf mt). split; [exact Logic.I|]. split; [reflexivity|]. intros b v t HP Ev (A & B & C). cbn [mop_spec fst snd]. split; [|reflexivity]. split; [exact A|]. cbn [v_has t_has v_sec t_sec]. split; [exact B|]. intros k j. unfold set2. destruct ((k =? mf) && (j =? mt)); [exact Logic.I|apply C].
  - destruct (good_section_tree x _ Hm Ho) as (s & E & E1 & E2 & E3 & P & Tx). exists (InFileInsert mf s). split; [exact Logic.I|]. split; [apply in_file_same; intros f Ef; unfold file_insert_typed; rewrite (Fm _ _ Ef), E; reflexivity|].
    intros b v t HP Ev O. cbn [mop_spec]. replace (ts_mat s =? v_mat v) with true by lia. cbn [negb orb]. rewrite (proj1 (proj2 O)), E2, E3. destruct (t_has t mf); cbn [negb fst snd]; [|auto]. assert (K := over_some b v t mf (MT_of x) O).
    destruct (MF_of x =? mf) eqn:Q; cbn [negb].
    + destruct (v_sec v mf (MT_of x)), (t_sec t mf (MT_of x)); try discriminate K; cbn [fst snd]; (split; [|reflexivity]); [exact O|apply over_put; auto; congruence].
    + destruct (t_sec t mf (MT_of x)); auto.
  - destruct (good_section_tree x _ Hm Ho) as (s & E & E1 & E2 & E3 & P & Tx). exists (InFilePut mf s). split; [exact Logic.I|]. split; [apply in_file_same; intros f Ef; unfold file_put_typed; rewrite (Fm _ _ Ef), E; reflexivity|].
    intros b v t HP Ev O. cbn [mop_spec]. replace (ts_mat s =? v_mat v) with true by lia. cbn [negb orb]. rewrite (proj1 (proj2 O)), E2. destruct (t_has t mf); cbn [negb fst snd]; [|auto].
    destruct (MF_of x =? mf) eqn:Q; cbn [negb fst snd]; [split; [apply over_put; auto; congruence|reflexivity]|auto].
Qed.

Lemma section_ids m mf mt s : wfm m -> mat_section m mf mt = Val s -> ts_mf s = mf /\ ts_mt s = mt.
Proof.
  intros W E. unfold mat_section, mat_file, at_ in E. destruct (mfind mf (tm_files m)) as [f|] eqn:F; [|discriminate E]. cbn [obind] in E.
  destruct (mfind_Forall _ _ _ _ (proj2 W) F) as (A & _ & Wf). cbn [fst snd] in *. unfold file_section, at_ in E. destruct (mfind mt (tf_secs f)) as [u|] eqn:U; [|discriminate E]. injection E as ->.
  destruct (mfind_Forall _ _ _ _ (proj2 Wf) U) as (B & C). cbn [fst snd] in *. split; congruence.
Qed.
Lemma parsed_once s x y : parsed_as s x -> parsed_as s y -> x = y.
Proof.
  destruct x as [c x], y as [d y]. intros (A & B) (C & D). cbn [projT1 projT2] in *. rewrite A in C. injection C as <-. rewrite B in D. now injection D as ->.
Qed.
Lemma class8 n c : lib_class 8 n = Some c -> n = 454 \/ n = 457 \/ n = 459.
Proof.
  unfold lib_class. repeat match goal with |- context [Z.eqb 8 ?k] => change (Z.eqb 8 k) with false || change (Z.eqb 8 k) with true end. cbn [andb].
  destruct (n =? 454) eqn:A; [lia|]. destruct (n =? 457) eqn:B; [lia|]. destruct (n =? 459) eqn:C; [lia|]. discriminate.
Qed.
Lemma hist b l : holds_printed b -> Forall yop_ok l -> forall m v t, made_mat m -> 0 < tm_mat m < 10000 -> shows m v -> over b v t ->
  exists m' xs v', yrun l m = Val (m', xs) /\ made_mat m' /\ tm_mat m' = tm_mat m /\ shows m' v' /\ over b v' (fst (EditSpec.run yop_spec l t)) /\ xs = snd (EditSpec.run yop_spec l t).
Proof.
  intros HP. induction 1 as [|o l Ho _ IH]; intros m v t Mm Hm S O.
  - exists m, [], v. cbn. auto 6.
  - assert (W := made_mat_wf m Mm). destruct (typed_step o m Hm W Ho) as (q & Qo & E & H).
    destruct (H b v t HP (eq_sym (proj1 S)) O) as (O' & X). destruct (mop_sim q m v W S) as (S' & X'). destruct (wfm_op q m Qo W) as (W' & Em).
    destruct (IH (fst (mop_run q m)) (fst (mop_spec q v)) (fst (yop_spec o t))) as (m' & xs & v' & E1 & M1 & T1 & S1 & O1 & X1).
    + exact (mm_op q m Qo Mm).
    + rewrite Em. exact Hm.
    + exact S'.
    + exact O'.
    + exists m', (snd (mop_run q m) :: xs), v'. cbn [yrun EditSpec.run]. rewrite E. cbn [obind]. rewrite E1. cbn [obind fst snd]. split; [reflexivity|]. split; [exact M1|]. split; [congruence|]. split; [exact S1|].
      destruct (yop_spec o t) as [t' x']. cbn [fst snd] in *. destruct (EditSpec.run yop_spec l t') as [t'' xs'] eqn:R. cbn [fst snd] in *. split; [exact O1|]. rewrite X1. f_equal. congruence.
Qed.

(** ** C69 *)
(** every history of typed edits: the sections parse as the finite map of typed sections says, and the exceptions are the expected ones *)
Theorem C69_histories : forall m t l, made_mat m -> 0 < tm_mat m < 10000 -> Forall yop_ok l -> shows_typed m t ->
  exists m' xs, yrun l m = Val (m', xs) /\ made_mat m' /\ shows_typed m' (fst (EditSpec.run yop_spec l t)) /\ xs = snd (EditSpec.run yop_spec l t).
Proof.
  intros m t l Mm Hm Ho S. apply shows_over in S. destruct S as (v & S & O). destruct (hist any_tsec l (fun _ _ _ => Logic.I) Ho m v t Mm Hm S O) as (m' & xs & v' & A & B & _ & C & D & E).
  exists m', xs. split; [exact A|]. split; [exact B|]. split; [apply shows_over; eauto|exact E].
Qed.
(** and the edited material, parsed as a whole, has exactly these sections *)
Theorem C69_whole : forall m t l, made_mat m -> 0 < tm_mat m < 10000 -> Forall yop_ok l -> shows_typed m t -> has_long_texts m ->
  (exists mf mt y, t_sec (fst (EditSpec.run yop_spec l t)) mf mt = Some y) ->
  exists m' y, yrun l m = Val (m', snd (EditSpec.run yop_spec l t)) /\ mat_parse skind_of lib_class m' = Val y /\ ym_mat y = tm_mat m
    /\ forall mf mt x, ymat_section y mf mt = Val x <-> t_sec (fst (EditSpec.run yop_spec l t)) mf mt = Some x.
Proof.
  intros m t l Mm Hm Ho S (W0 & W32) Ne.
  assert (W : has_Q (fun mat s => text_of mat s /\ (ts_mf s = 32 -> long_end (ts_text s))) m).
  { intros mf mt s Es. split; [exact (W0 mf mt s Es)|]. rewrite (proj1 (section_ids m mf mt s (made_mat_wf m Mm) Es)). intros ->. exact (W32 mt s Es). }
  destruct (proj1 (shows_over_Q _ m t) (conj S W)) as (v & Sv & O).
  destruct (hist _ l (fun _ _ P => conj (conj (proj1 P) (proj1 (proj2 P))) (fun _ => proj2 (proj2 P))) Ho m v t Mm Hm Sv O) as (m' & xs & v' & A & B & Tm & C & D & E). set (t' := fst (EditSpec.run yop_spec l t)) in *.
  destruct (proj2 (shows_over_Q _ m' t') (ex_intro _ v' (conj C D))) as ((T1 & T2 & T3) & W').
  assert (K : forall mf mt s, mat_section m' mf mt = Val s -> exists y, t_sec t' mf mt = Some y /\ parsed_as s y).
  { intros mf mt s Es. specialize (T3 mf mt). destruct (t_sec t' mf mt) as [y|]; [|destruct T3 as (_ & T3); congruence]. destruct T3 as (_ & s' & E1 & P). exists y. split; [reflexivity|]. congruence. }
  assert (Id : forall mf mt s, mat_section m' mf mt = Val s -> ts_mf s = mf /\ ts_mt s = mt) by (intros mf mt s Es; exact (section_ids m' mf mt s (made_mat_wf m' B) Es)).
  assert (R : ready m').
  { split; [now rewrite Tm|]. split.
    - destruct Ne as (mf & mt & y & Ey). exists mf, mt. specialize (T3 mf mt). rewrite Ey in T3. apply T3.
    - split.
      + intros mf mt s Es. destruct (W' mf mt s Es) as ((W1 & W2) & W3). split; [exact W1|]. split; [exact W2|]. destruct (K mf mt s Es) as (y & Ey & (Py & _)). split.
        * intros ->. rewrite (proj1 (Id _ _ _ Es)) in Py. discriminate Py.
        * intros ->. apply W3, (Id _ _ _ Es).
      + intros n Hn _. apply section_has in Hn. destruct Hn as (s & Es). destruct (K 8 n s Es) as (y & _ & (Py & _)). destruct (Id _ _ _ Es) as (I1 & I2). rewrite I1, I2 in Py.
        exact (class8 n (projT1 y) Py). }
  destruct (C66_material m' B R) as ((_ & P1) & P2). destruct P1 as (y & Py).
  { intros mf mt s Es. destruct (K mf mt s Es) as (y & _ & P). eauto. }
  exists m', y. split; [rewrite A; now rewrite E|]. split; [exact Py|]. destruct (P2 y Py) as (Q1 & _ & _ & Q4). split; [congruence|]. intros mf mt x. rewrite Q4. split.
  - intros (s & Es & Ps). destruct (K mf mt s Es) as (z & Ez & Pz). rewrite Ez. f_equal. exact (parsed_once s z x Pz Ps).
  - intros Ex. specialize (T3 mf mt). rewrite Ex in T3. destruct T3 as (_ & s & Es & Ps). eauto.
Qed.
(** insert refuses a section that is there, and nothing seen changes *)
Theorem C69_insert_existing : forall m t x, made_mat m -> 0 < tm_mat m < 10000 -> good_section x -> shows_typed m t ->
  (mat_hasMFMT m (MF_of x) (MT_of x) = true -> exists m', mat_insert_typed x m = Val (m', Some EStd) /\ shows_typed m' t)
  /\ (mat_hasMFMT m (MF_of x) (MT_of x) = false -> exists m', mat_insert_typed x m = Val (m', None) /\ shows_typed m' (t_put x t)).
Proof.
  intros m t x Mm Hm G S. destruct (C69_histories m t [YInsert x] Mm Hm) as (m' & xs & E & _ & S' & X); [constructor; [exact G|constructor]|exact S|].
  cbn [yrun yop_run EditSpec.run yop_spec] in *. destruct (mat_insert_typed x m) as [[m1 e1]|e|] eqn:Ei; try discriminate E. cbn [obind fst snd] in E. injection E as -> <-.
  destruct S as (_ & _ & S3). specialize (S3 (MF_of x) (MT_of x)). destruct (t_sec t (MF_of x) (MT_of x)); cbn [fst snd] in *; injection X as ->; destruct S3 as (S3 & _); rewrite S3; split; try discriminate; eauto.
Qed.
(** the last section put under its numbers is the one found there, until those numbers are touched again *)
Theorem C69_last_put : forall m x, made_mat m -> 0 < tm_mat m < 10000 -> good_section x ->
  exists m', mat_put_typed x m = Val (m', None) /\ mat_hasMFMT m' (MF_of x) (MT_of x) = true
    /\ (exists s, mat_section m' (MF_of x) (MT_of x) = Val s /\ parsed_as s x)
    /\ forall mf mt, (mf, mt) <> (MF_of x, MT_of x) -> mat_section m' mf mt = mat_section m mf mt /\ mat_hasMFMT m' mf mt = mat_hasMFMT m mf mt.
Proof.
  intros m x Mm Hm G. assert (W := made_mat_wf m Mm). destruct (good_section_tree x _ Hm G) as (s & E & E1 & E2 & E3 & P & _).
  assert (Sv := shows_self m). destruct (mop_sim (PutSection s) m (view_of m) W Sv) as (A & B). cbn [mop_run mop_spec] in *.
  replace (ts_mat s =? v_mat (view_of m)) with true in * by (destruct Sv as (Sv & _); rewrite <- Sv; lia). cbn [negb fst snd] in *.
  exists (fst (mat_put_sec s m)). unfold mat_put_typed. rewrite E. cbn [thrown]. split; [rewrite <- B; now destruct (mat_put_sec s m)|].
  destruct A as (_ & _ & A3 & A4). destruct Sv as (_ & _ & B3 & B4). rewrite A3. unfold put_section in *. cbn [v_sec] in *. rewrite E2, E3 in *. split; [unfold set2; now rewrite !Z.eqb_refl|]. split.
  - exists s. rewrite A4. unfold set2. rewrite !Z.eqb_refl. auto.
  - intros mf mt Nm. rewrite A3, A4, B3, B4. unfold set2. destruct ((mf =? MF_of x) && (mt =? MT_of x)) eqn:Q; [|auto]. exfalso. apply Nm. f_equal; lia.
Qed.

(** ** tapes *)
Inductive ytop := YTInsert (y : ymat) | YTReplace (y : ymat) | YTRemove (mat : Z).
Definition ytop_ok (o : ytop) : Prop := match o with YTInsert y | YTReplace y => good_material y | YTRemove _ => True end.
Definition ytop_run (o : ytop) (T : ttape) : out (ttape * option exn) :=
  match o with YTInsert y => tape_insert_typed y T | YTReplace y => tape_replace_typed y T | YTRemove k => Val (tape_remove k T, None) end.
Fixpoint ytrun (l : list ytop) (T : ttape) : out (ttape * list (option exn)) :=
  match l with
  | [] => Val (T, [])
  | o :: l' => obind (ytop_run o T) (fun r => obind (ytrun l' (fst r)) (fun q => Val (fst q, snd r :: snd q)))
  end.
Definition ytop_spec (o : ytop) (f : Z -> list ymat) : Z -> list ymat :=
  match o with
  | YTInsert y => set1 f (ym_mat y) (f (ym_mat y) ++ [y])
  | YTReplace y => set1 f (ym_mat y) [y]
  | YTRemove k => set1 f k []
  end.
(** under every number the tape holds materials that parse as the listed ones, in that order *)
Definition tape_shows_typed (T : ttape) (f : Z -> list ymat) : Prop :=
  forall mat, tape_number T mat = Z.of_nat (length (f mat))
    /\ tape_has T mat = match f mat with [] => false | _ => true end
    /\ match f mat with
       | [] => tape_material T mat = Throw EOor
       | ys => exists xs, tape_material T mat = Val xs /\ Forall2 (fun x y => mat_parse skind_of lib_class x = Val y) xs ys
       end.
Definition tover (g : Z -> list tmat) (f : Z -> list ymat) : Prop := forall mat, Forall2 (fun x y => mat_parse skind_of lib_class x = Val y) (g mat) (f mat).
Lemma tshows_over T f : tape_shows_typed T f <-> exists g, tape_shows T g /\ tover g f.
Proof.
  split.
  - intros H. exists (fun mat => mmrange mat (tt_mats T)). split; [apply shows_range|]. intros mat. destruct (H mat) as (A & B & C). unfold tape_number in A. unfold tape_material in C. destruct (f mat) as [|y ys].
    + destruct (mmrange mat (tt_mats T)); [constructor|discriminate A].
    + destruct C as (xs & C & F). rewrite B in C. injection C as ->. exact F.
  - intros (g & S & O) mat. destruct (S mat) as (A & B & C). specialize (O mat). destruct (f mat) as [|y ys]; inversion O as [E|x y' xs ys' P F E1 E2]; subst.
    + rewrite <- E in *. auto.
    + rewrite <- E1 in *. split; [rewrite A; cbn [length]; now rewrite (F2_length _ _ _ F)|]. split; [exact B|]. exists (x :: xs). split; [exact C|now constructor].
Qed.
Lemma good_mat_tree y : good_material y -> exists X, to_mat skind_of y = Val X /\ tm_mat X = ym_mat y /\ made_mat X /\ mat_parse skind_of lib_class X = Val y.
Proof.
  intros G. destruct (proj2 C30_library y G) as (X & E & A & _ & P). exists X. split; [exact E|]. split; [exact A|]. split; [|exact P].
  unfold to_mat in E. destruct (pr_ymat skind_of y) as [t|e|]; try discriminate E. cbn [obind] in E. destruct (index_mat t) as [x s| |] eqn:Ei; cbn [res_out] in E; try discriminate E. injection E as <-. exact (mm_index _ _ _ Ei).
Qed.
(** what cannot be written is not put: the exception of the printer is the one of the edit, and nothing changes *)
Theorem C69_unwritten : forall x m f,
  (forall e, pr_any skind_of x (tm_mat m) (MF_of x) = Throw e -> mat_insert_typed x m = Val (m, Some e) /\ mat_put_typed x m = Val (m, Some e))
  /\ (pr_any skind_of x (tm_mat m) (MF_of x) = Undef -> mat_insert_typed x m = Undef /\ mat_put_typed x m = Undef)
  /\ (forall e, pr_any skind_of x (tf_mat f) (MF_of x) = Throw e -> file_insert_typed x f = Val (f, Some e) /\ file_put_typed x f = Val (f, Some e))
  /\ (pr_any skind_of x (tf_mat f) (MF_of x) = Undef -> file_insert_typed x f = Undef /\ file_put_typed x f = Undef).
Proof.
  intros x m f. unfold mat_insert_typed, mat_put_typed, file_insert_typed, file_put_typed, any_section, to_section, MF_of, pr_any.
  repeat split; first [now rewrite H|idtac]; match goal with H : _ = _ |- _ => rewrite H; reflexivity end.
Qed.
(** a section cannot be written into material 0 *)
Example C69_unwritten_example : pr_any skind_of (ex_3 1) 0 (MF_of (ex_3 1)) = Throw EStd /\ mat_put_typed (ex_3 1) (mktmat 0 []) = Val (mktmat 0 [], Some EStd).
Proof. split; vm_compute; reflexivity. Qed.
Theorem C69_tapes : forall T f l, made_tape T -> tape_shows_typed T f -> Forall ytop_ok l ->
  exists T', ytrun l T = Val (T', map (fun _ => None) l) /\ made_tape T' /\ tape_shows_typed T' (fold_left (fun f o => ytop_spec o f) l f).
Proof.
  intros T f l Mt S Ho. revert T f Mt S. induction Ho as [|o l Ho _ IH]; intros T f Mt S; [exists T; cbn; auto|].
  assert (K : exists q, match q with TInsert m | TReplace m => made_mat m | TRemove _ => True end /\ ytop_run o T = Val (top_run q T, None)
                /\ forall g f, tover g f -> tover (top_spec q g) (ytop_spec o f)).
  { destruct o as [y|y|k]; cbn [ytop_ok ytop_run ytop_spec] in *.
    - destruct (good_mat_tree y Ho) as (X & E & Em & M & P). exists (TInsert X). split; [exact M|]. split; [unfold tape_insert_typed; rewrite E; reflexivity|]. intros g h O mat. cbn [top_spec]. unfold set1. rewrite Em. destruct (mat =? ym_mat y); [|apply O]. apply Forall2_app; [apply O|constructor; [exact P|constructor]].
    - destruct (good_mat_tree y Ho) as (X & E & Em & M & P). exists (TReplace X). split; [exact M|]. split; [unfold tape_replace_typed; rewrite E; reflexivity|]. intros g h O mat. cbn [top_spec]. unfold set1. rewrite Em. destruct (mat =? ym_mat y); [|apply O]. constructor; [exact P|constructor].
    - exists (TRemove k). split; [exact Logic.I|]. split; [reflexivity|]. intros g h O mat. cbn [top_spec]. unfold set1. destruct (mat =? k); [constructor|apply O]. }
  destruct K as (q & Qm & E & H). apply tshows_over in S. destruct S as (g & S & O).
  assert (S1 : tape_shows (top_run q T) (top_spec q g)) by (apply (C22_histories T g [q] Mt S); constructor; [exact Qm|constructor]).
  assert (M1 : made_tape (top_run q T)) by (destruct q; cbn [top_run]; [now apply mt_insert|now apply mt_replace|now apply mt_remove]).
  destruct (IH (top_run q T) (ytop_spec o f) M1) as (T' & E1 & M2 & S2); [apply tshows_over; exists (top_spec q g); auto|].
  exists T'. cbn [ytrun map fold_left]. rewrite E. cbn [obind fst snd]. rewrite E1. cbn [obind fst snd]. auto.
Qed.
Definition ex_edits : list yop := [YPut (ex_3 1); YInsert (ex_3 1); YInsertFile ex_f3; YPutFile ex_f1; YInFileInsert 1 (ex_3 5); YInFilePut 3 (ex_3 102); YRemove 3 1; YInFilePut 4 (ex_3 7)].
Definition ex_t0 : tview := mktview 9228 (fun _ => false) (fun _ _ => None).
Example C69_example : made_mat (mktmat 9228 []) /\ shows_typed (mktmat 9228 []) ex_t0 /\ has_long_texts (mktmat 9228 []) /\ Forall yop_ok ex_edits
  /\ t_sec (fst (EditSpec.run yop_spec ex_edits ex_t0)) 3 102 = Some (ex_3 102) /\ t_sec (fst (EditSpec.run yop_spec ex_edits ex_t0)) 3 1 = None
  /\ snd (EditSpec.run yop_spec ex_edits ex_t0) = [None; Some EStd; Some EStd; None; Some EStd; None; None; Some EOor]
  /\ tape_shows_typed (mkttape None []) (fun _ => []) /\ Forall ytop_ok [YTInsert PropClasses.ex_mat; YTInsert PropClasses.ex_mat; YTReplace PropClasses.ex_mat; YTRemove 125].
Proof.
  split; [constructor|]. split; [split; [reflexivity|split; [reflexivity|intros mf mt; split; reflexivity]]|]. split; [split; [intros mf mt s E; discriminate E|intros mt s E; discriminate E]|]. split.
  - assert (G1 : good_section (ex_3 1)) by (apply ex_3_good; lia). assert (G2 : good_section (ex_3 102)) by (apply ex_3_good; lia). assert (G5 : good_section (ex_3 5)) by (apply ex_3_good; lia). assert (G7 : good_section (ex_3 7)) by (apply ex_3_good; lia).
    destruct PropClasses.C32_example as (_ & (_ & _ & _ & F)). cbn [PropClasses.ex_mat ym_files] in F. apply Forall_cons_iff in F. destruct F as ((_ & F1) & F). apply Forall_cons_iff in F. destruct F as ((_ & F3) & _).
    unfold ex_edits. repeat (apply Forall_cons; [first [assumption|exact Logic.I]|]). constructor.
  - split; [reflexivity|]. split; [reflexivity|]. split; [reflexivity|]. split; [intros mat; cbn; auto|].
    destruct PropClasses.C32_example as (_ & G). repeat (apply Forall_cons; [first [exact G|exact Logic.I]|]). constructor.
Qed.
