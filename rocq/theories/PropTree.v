(** PropTree.v -- indexing a tape: C18, C19, C28, C29, C43, C44.
    Vocabulary: TreeSpec.v (what a tape looks like). *)
From Coq Require Import QArith ZifyBool String.
From Verif Require Import Base Disco DiscoProofs Records RecordProofs RecordSound Spec LineFacts
  Normal Tree TreeSpec TreeProofs TreeGrammar TreeMaps PropRecords.
Open Scope Z_scope.
Open Scope list_scope.
Notation length := List.length.

(** ** C43: indexing accepts exactly the tapes described in TreeSpec.v *)
Theorem C43_accepted_tapes : forall t,
  (exists T s, index_tape t = Ok T s) <-> exists src, tape_ok src /\ tape_text src t.
Proof.
  intros t. split.
  - intros (T & s & E). destruct (proj1 (index_tape_grammar t T)) as (src & i & H & Ht & _); [eauto|]. eauto.
  - intros (src & H & Ht). destruct (proj1 H) as (i & Ti).
    exists (tape_tree src i). apply index_tape_grammar. eauto 6.
Qed.
(** and on every other text it throws a std::exception: it always terminates,
    nothing else escapes *)
Theorem C43_otherwise_rejected : forall t,
  ~ (exists src, tape_ok src /\ tape_text src t) -> rejected (index_tape t).
Proof.
  intros t H. rewrite <- C43_accepted_tapes in H. pose proof (index_tape_std t) as S.
  destruct (index_tape t) as [T s|e s|]; [elim H; eauto|exists e, s; auto|elim S].
Qed.

(** ** C19: what the tree gives back *)
(** [x] is a tree for the material [m]: every section can be found under its
    numbers and nothing else can *)
Definition holds (m : mat_src) (x : tmat) : Prop :=
  tm_mat x = m_mat m
  /\ (forall mf, mat_hasMF x mf = true <-> exists f, In f (x_files m) /\ f_mf f = mf)
  /\ (forall mf, mat_hasMF x mf = false -> mat_file x mf = Throw EOor)
  /\ (forall f s, In f (x_files m) -> In s (x_secs f) ->
        mat_hasMFMT x (f_mf f) (x_mt s) = true
        /\ mat_section x (f_mf f) (x_mt s)
           = Val (mktsec (x_mat s) (x_mf s) (x_mt s) (lines_text (sec_lines s))))
  /\ (forall mf mt, (forall f s, In f (x_files m) -> In s (x_secs f) -> (f_mf f, x_mt s) <> (mf, mt)) ->
        mat_hasMFMT x mf mt = false /\ mat_section x mf mt = Throw EOor)
  /\ ascending Z.lt (file_numbers x)
  /\ (forall mf f, mat_file x mf = Val f -> ascending Z.lt (section_numbers f)).

Lemma mfind_map {A B} (k : A -> Z) (e : A -> B) l z : NoDup (map k l) ->
  (forall a, In a l -> k a = z -> mfind z (map (fun a => (k a, e a)) l) = Some (e a))
  /\ ((forall a, In a l -> k a <> z) -> mfind z (map (fun a => (k a, e a)) l) = None).
Proof.
  intros N. split.
  - induction l as [|b l IH]; intros a Ha Ea; [elim Ha|]. inversion N as [|? ? Nb Nl]; subst. cbn.
    destruct Ha as [->|Ha].
    + now rewrite Z.eqb_refl.
    + destruct (Z.eqb_spec (k a) (k b)) as [E|E].
      * elim Nb. rewrite <- E. now apply in_map.
      * now apply IH.
  - intros H. apply mfind_None. rewrite map_map. cbn. intros K. apply in_map_iff in K. destruct K as (a & Ea & Ha). now apply (H a).
Qed.

Lemma file_tree_find f mt : file_ok f ->
  (forall s, In s (x_secs f) -> x_mt s = mt -> mfind mt (tf_secs (file_tree f)) = Some (sec_tree s))
  /\ ((forall s, In s (x_secs f) -> x_mt s <> mt) -> mfind mt (tf_secs (file_tree f)) = None).
Proof.
  intros (_ & _ & _ & N & _). unfold file_tree. cbn [tf_secs].
  rewrite (fold_place_find _ _ _ (fresh_nodup x_mt sec_tree _ N)). cbn [mfind].
  apply (mfind_map x_mt sec_tree _ mt N).
Qed.
Lemma mat_tree_find m mf : mat_ok m ->
  (forall f, In f (x_files m) -> f_mf f = mf -> mfind mf (tm_files (mat_tree m)) = Some (file_tree f))
  /\ ((forall f, In f (x_files m) -> f_mf f <> mf) -> mfind mf (tm_files (mat_tree m)) = None).
Proof.
  intros (_ & _ & _ & N & _). unfold mat_tree. cbn [tm_files].
  rewrite (fold_place_find _ _ _ (fresh_nodup f_mf file_tree _ N)). cbn [mfind].
  apply (mfind_map f_mf file_tree _ mf N).
Qed.
Lemma find_mf (l : list file_src) mf : (exists f, In f l /\ f_mf f = mf) \/ (forall f, In f l -> f_mf f <> mf).
Proof.
  induction l as [|a l [(f & H & E)|IH]]; [right; intros f []|left; exists f; split; [now right|exact E]|].
  destruct (Z.eq_dec (f_mf a) mf) as [E|E]; [left; exists a; split; [now left|exact E]|].
  right. intros f [->|H]; auto.
Qed.
Lemma holds_tree m : mat_ok m -> holds m (mat_tree m).
Proof.
  intros Ok. pose proof (mat_tree_find m) as F. pose proof Ok as (_ & Of & _). rewrite Forall_forall in Of.
  split; [reflexivity|]. unfold mat_hasMF, mhas, mat_hasMFMT, mat_section, mat_file, file_section, file_has, mhas, at_.
  split; [|split; [|split; [|split; [|split]]]].
  - intros mf. destruct (F mf Ok) as [F1 F2]. destruct (find_mf (x_files m) mf) as [(f & H & E)|H].
    + rewrite (F1 f H E). split; eauto.
    + rewrite (F2 H). split; [discriminate|]. intros (f & Hf & E). now elim (H f Hf).
  - intros mf. destruct (mfind mf (tm_files (mat_tree m))); [discriminate|reflexivity].
  - intros f s Hf Hs. rewrite (proj1 (F _ Ok) f Hf eq_refl). cbn [obind].
    destruct (file_tree_find f (x_mt s) (Of f Hf)) as [G _]. rewrite (G s Hs eq_refl). auto.
  - intros mf mt H. destruct (find_mf (x_files m) mf) as [(f & Hf & E)|Hf].
    + rewrite (proj1 (F mf Ok) f Hf E). cbn [obind]. destruct (file_tree_find f mt (Of f Hf)) as [_ G].
      rewrite G; [auto|]. intros s Hs K. apply (H f s Hf Hs). congruence.
    + rewrite (proj2 (F mf Ok) Hf). auto.
  - unfold file_numbers, mat_tree. cbn [tm_files]. apply fold_place_strict. exact I.
  - intros mf f. destruct (find_mf (x_files m) mf) as [(f' & Hf & E)|Hf].
    + rewrite (proj1 (F mf Ok) f' Hf E). intros K. injection K as <-.
      unfold section_numbers, file_tree. cbn [tf_secs]. apply fold_place_strict. exact I.
    + rewrite (proj2 (F mf Ok) Hf). discriminate.
Qed.
Lemma range_map {A B} (k : A -> Z) (e : A -> B) l z :
  mmrange z (map (fun a => (k a, e a)) l) = map e (filter (fun a => k a =? z) l).
Proof. unfold mmrange. induction l as [|a l IH]; [reflexivity|]. cbn. destruct (k a =? z); cbn; now rewrite IH. Qed.

(** for every tape: the materials with a given MAT are found, in the order of the
    tape, and each holds exactly its sections *)
Theorem C19_lookups : forall src t, tape_ok src -> tape_text src t ->
  exists T s, index_tape t = Ok T s /\
    forall mat, let ms := filter (fun m => m_mat m =? mat) (x_mats src) in
      tape_number T mat = Z.of_nat (length ms)
      /\ (ms <> [] -> tape_has T mat = true
                     /\ exists l, tape_material T mat = Val l /\ Forall2 holds ms l)
      /\ (ms = [] -> tape_has T mat = false /\ tape_material T mat = Throw EOor).
Proof.
  intros src t H Ht. destruct (proj1 H) as (i & Ti).
  destruct (proj2 (index_tape_grammar t (tape_tree src i))) as (s & E); [eauto 6|].
  exists (tape_tree src i), s. split; [exact E|]. intros mat ms.
  assert (R : mmrange mat (tt_mats (tape_tree src i)) = map mat_tree ms).
  { unfold tape_tree. cbn [tt_mats]. rewrite fold_mmput_range by exact I. cbn [mmrange filter map app].
    apply (range_map m_mat mat_tree). }
  unfold tape_material, tape_has, tape_number. rewrite R, map_length. split; [reflexivity|].
  destruct ms as [|m l] eqn:Em; (split; [intros Hn|intros Hn]); try congruence.
  - cbn. auto.
  - replace (Z.of_nat (length (m :: l)) =? 0) with false by (cbn [length]; lia). cbn [negb]. split; [reflexivity|].
    exists (map mat_tree (m :: l)). split; [reflexivity|]. rewrite <- Em.
    assert (F : Forall mat_ok ms).
    { apply Forall_forall. intros x Hx. unfold ms in Hx. apply filter_In in Hx. destruct H as (_ & _ & F & _).
      rewrite Forall_forall in F. apply F. tauto. }
    rewrite <- Em in *. clear -F. induction F; cbn; constructor; auto using holds_tree.
Qed.

(** ** C29, C44: end records do not matter *)
(** the sections of a tape, grouped in files and materials *)
Definition sections_of (src : tape_src) :=
  map (fun m => map (fun f => map (fun s => (x_mat s, x_mf s, x_mt s, sec_lines s)) (x_secs f)) (x_files m)) (x_mats src).

Lemma same_file a b :
  map (fun s => (x_mat s, x_mf s, x_mt s, sec_lines s)) (x_secs a)
  = map (fun s => (x_mat s, x_mf s, x_mt s, sec_lines s)) (x_secs b) ->
  f_mat a = f_mat b /\ f_mf a = f_mf b /\ file_tree a = file_tree b.
Proof.
  destruct a as [la fa], b as [lb fb]. unfold file_tree, f_mat, f_mf. cbn [x_secs]. intros H.
  assert (H1 : x_mat (hd sec0 la) = x_mat (hd sec0 lb) /\ x_mf (hd sec0 la) = x_mf (hd sec0 lb)).
  { destruct la, lb; cbn in H; try discriminate; [auto|]. inversion H. auto. }
  destruct H1 as [-> ->]. split; [reflexivity|]. split; [reflexivity|]. do 2 f_equal.
  clear fa fb. revert lb H. induction la as [|s la IH]; intros [|s' lb] H; cbn in H; try discriminate; [reflexivity|].
  assert (E0 := f_equal (fun l => match l with x :: _ => x | [] => (0, 0, 0, []) end) H). apply (f_equal (@tl _)) in H.
  cbn beta iota in E0. cbn [tl] in H. cbn [map]. f_equal; [|auto]. unfold sec_entry, sec_tree.
  assert (E1 := f_equal snd E0). assert (E2 := f_equal fst E0). cbn [fst snd] in E1, E2. injection E2 as -> -> ->. now rewrite E1.
Qed.
Lemma same_mat a b :
  map (fun f => map (fun s => (x_mat s, x_mf s, x_mt s, sec_lines s)) (x_secs f)) (x_files a)
  = map (fun f => map (fun s => (x_mat s, x_mf s, x_mt s, sec_lines s)) (x_secs f)) (x_files b) ->
  m_mat a = m_mat b /\ mat_tree a = mat_tree b.
Proof.
  destruct a as [la fa], b as [lb fb]. unfold mat_tree, m_mat. cbn [x_files]. intros H.
  assert (H1 : f_mat (hd file0 la) = f_mat (hd file0 lb)).
  { destruct la, lb; cbn in H; try discriminate; [auto|]. injection H as E _. now apply same_file in E. }
  rewrite H1. split; [reflexivity|]. do 2 f_equal.
  clear fa fb H1. revert lb H. induction la as [|s la IH]; intros [|s' lb] H; cbn in H; try discriminate; [reflexivity|].
  injection H as E1 E2. cbn. f_equal; [|auto]. apply same_file in E1. destruct E1 as (_ & E & E'). unfold file_entry. congruence.
Qed.
Lemma same_tape a b i : sections_of a = sections_of b -> tape_tree a i = tape_tree b i.
Proof.
  destruct a as [ia la ea], b as [ib lb eb]. unfold sections_of, tape_tree. cbn [x_mats]. intros H. do 2 f_equal.
  revert lb H. induction la as [|s la IH]; intros [|s' lb] H; cbn in H; try discriminate; [reflexivity|].
  injection H as E1 E2. cbn. f_equal; [|auto]. apply same_mat in E1. destruct E1 as (E & E'). unfold mat_entry. congruence.
Qed.

(** two tapes with the same identification and the same sections give the same
    tree, however many SEND, FEND and MEND records they have (one or more; or
    none, where the next HEAD shows the new file or material) *)
Theorem C29_only_sections_matter : forall a b ta tb,
  tape_ok a -> tape_ok b -> tape_text a ta -> tape_text b tb ->
  x_tpid a = x_tpid b -> sections_of a = sections_of b ->
  exists T s s', index_tape ta = Ok T s /\ index_tape tb = Ok T s'.
Proof.
  intros a b ta tb Ha Hb Hta Htb Ei Es. destruct (proj1 Ha) as (i & Ti).
  destruct (proj2 (index_tape_grammar ta (tape_tree a i))) as (s & E); [eauto 6|].
  destruct (proj2 (index_tape_grammar tb (tape_tree b i))) as (s' & E').
  { exists b, i. rewrite <- Ei. auto. }
  exists (tape_tree a i), s, s'. rewrite (same_tape a b i Es) at 2. auto.
Qed.

(** in particular: more SEND records after a section, more FEND records after a
    file, more MEND records after a material *)
Definition more_sends (es : list text) (s : sec_src) : sec_src :=
  mkss (x_mat s) (x_mf s) (x_mt s) (x_head s) (x_body s) (x_last s) (x_sends s ++ es).
Definition more_fends (es fs : list text) (f : file_src) : file_src :=
  mkfs (map (more_sends es) (x_secs f)) (x_fends f ++ fs).
Definition more_mends (es fs ms : list text) (m : mat_src) : mat_src :=
  mkms (map (more_fends es fs) (x_files m)) (x_mends m ++ ms).
Definition padded (es fs ms : list text) (t : tape_src) : tape_src :=
  mkts (x_tpid t) (map (more_mends es fs ms) (x_mats t)) (x_tend t).

Lemma last_map {A B} (g : A -> B) l a : last (map g l) (g a) = g (last l a).
Proof. induction l as [|x [|y l] IH]; [reflexivity|reflexivity|]. exact IH. Qed.

Section Pad.
  Variables es fs ms : list text.
  Hypothesis He : Forall send_line es /\ Forall noLF es.
  Hypothesis Hf : Forall fend_line fs /\ Forall noLF fs.
  Hypothesis Hm : Forall mend_line ms /\ Forall noLF ms.
  Lemma pad_sec s : sec_ok s -> sec_ok (more_sends es s).
  Proof.
    intros (A & B & C & D & E). split; [exact A|]. split; [exact B|]. split; [exact C|]. cbn [x_sends more_sends]. split.
    - apply Forall_app. tauto.
    - unfold sec_all in *. cbn [x_sends more_sends]. rewrite app_assoc. apply Forall_app. split; [exact E|tauto].
  Qed.
  Lemma pad_file_mf f : f_mf (more_fends es fs f) = f_mf f.
  Proof. destruct f as [[|s l] fe]; reflexivity. Qed.
  Lemma pad_file_mat f : f_mat (more_fends es fs f) = f_mat f.
  Proof. destruct f as [[|s l] fe]; reflexivity. Qed.
  Lemma pad_file f : file_ok f -> file_ok (more_fends es fs f).
  Proof.
    intros (A & B & C & D & E & F). unfold file_ok. rewrite pad_file_mf. cbn [x_secs x_fends more_fends].
    split; [destruct (x_secs f); [congruence|discriminate]|]. split; [|split; [|split; [|split]]].
    - apply Forall_map. eapply Forall_impl; [|exact B]. apply pad_sec.
    - apply Forall_map. exact C.
    - rewrite map_map. exact D.
    - apply Forall_app. tauto.
    - apply Forall_app. tauto.
  Qed.
  Lemma pad_mat_mat m : m_mat (more_mends es fs ms m) = m_mat m.
  Proof. destruct m as [[|s l] fe]; [reflexivity|]. unfold m_mat. cbn. apply pad_file_mat. Qed.
  Lemma pad_mat m : mat_ok m -> mat_ok (more_mends es fs ms m).
  Proof.
    intros (A & B & C & D & E & F). unfold mat_ok. rewrite pad_mat_mat. cbn [x_files x_mends more_mends].
    split; [destruct (x_files m); [congruence|discriminate]|]. split; [|split; [|split; [|split]]].
    - apply Forall_map. eapply Forall_impl; [|exact B]. apply pad_file.
    - apply Forall_map. eapply Forall_impl; [|exact C]. cbn. intros f. now rewrite pad_file_mat.
    - rewrite map_map. erewrite map_ext; [exact D|]. intros f. apply pad_file_mf.
    - apply Forall_app. tauto.
    - apply Forall_app. tauto.
  Qed.
  Lemma pad_sep a b : x_files a <> [] -> separated a b -> separated (more_mends es fs ms a) (more_mends es fs ms b).
  Proof.
    intros Hn H E. cbn [x_mends more_mends] in E. apply app_eq_nil in E. destruct (H (proj1 E)) as [H1 H2].
    rewrite !pad_mat_mat. split; [exact H1|]. cbn [x_files more_mends].
    assert (L : last (map (more_fends es fs) (x_files a)) file0 = more_fends es fs (last (x_files a) file0)).
    { destruct (x_files a) as [|f l]; [congruence|]. rewrite <- (last_map (more_fends es fs)). apply last_any. discriminate. }
    rewrite L, pad_file_mf. cbn [x_fends more_fends]. intros E'. apply app_eq_nil in E'. specialize (H2 (proj1 E')).
    assert (m_first_mf (more_mends es fs ms b) = m_first_mf b); [|congruence].
    destruct b as [[|f l] fe]; [reflexivity|]. unfold m_first_mf. cbn. apply pad_file_mf.
  Qed.
  Lemma pad_sep_all l : Forall mat_ok l -> separated_all l -> separated_all (map (more_mends es fs ms) l).
  Proof.
    induction l as [|a [|b l] IH]; intros F H; [exact I|exact I|]. inversion F as [|? ? (Hn & _) F']; subst.
    destruct H as [H1 H2]. split; [now apply pad_sep|]. apply IH; auto.
  Qed.
  Lemma pad_tape t : tape_ok t -> tape_ok (padded es fs ms t).
  Proof.
    intros (A & B & C & D & E). split; [exact A|]. split; [exact B|]. cbn [x_mats padded]. split; [|split; [|exact E]].
    - apply Forall_map. eapply Forall_impl; [|exact C]. apply pad_mat.
    - now apply pad_sep_all.
  Qed.
  Lemma pad_sections t : sections_of (padded es fs ms t) = sections_of t.
  Proof.
    unfold sections_of. cbn [x_mats padded]. rewrite map_map. apply map_ext. intros m. cbn [x_files more_mends].
    rewrite map_map. apply map_ext. intros f. cbn [x_secs more_fends]. rewrite map_map. reflexivity.
  Qed.
End Pad.
Theorem C29_redundant_end_records : forall src es fs ms t t',
  tape_ok src -> tape_text src t ->
  Forall send_line es /\ Forall noLF es -> Forall fend_line fs /\ Forall noLF fs -> Forall mend_line ms /\ Forall noLF ms ->
  tape_text (padded es fs ms src) t' ->
  exists T s s', index_tape t = Ok T s /\ index_tape t' = Ok T s'.
Proof.
  intros src es fs ms t t' H Ht He Hf Hm Ht'.
  apply (C29_only_sections_matter src (padded es fs ms src)); auto.
  - now apply pad_tape.
  - symmetry. apply pad_sections.
Qed.

(** ** C28 *)
Lemma lines_nth ls u i l : nth_error ls i = Some l -> Forall noLF ls -> nth_line (lines_text ls ++ u) i = l.
Proof.
  revert i. induction ls as [|a ls IH]; intros [|i] E N; try discriminate; inversion N; subst; rewrite lines_cons; cbn [nth_line].
  - injection E as ->. rewrite next_line_app by assumption. reflexivity.
  - rewrite next_line_app by assumption. cbn [snd]. now apply IH.
Qed.
Lemma drop_lines_nth n : forall t i, nth_line (drop_lines n t) i = nth_line t (n + i).
Proof. induction n as [|n IH]; intros t i; [reflexivity|]. cbn. apply IH. Qed.
Lemma drop_lines_lines ls u : Forall noLF ls -> drop_lines (length ls) (lines_text ls ++ u) = u.
Proof.
  induction ls as [|a ls IH]; intros N; [reflexivity|]. inversion N; subst. rewrite lines_cons. cbn [drop_lines length].
  rewrite next_line_app by assumption. now apply IH.
Qed.
Lemma tape_noLF src : tape_ok src -> Forall noLF (x_tpid src :: flat_map mat_all (x_mats src)).
Proof.
  intros (_ & N & F & _). constructor; [exact N|]. apply Forall_flat_map. eapply Forall_impl; [|exact F].
  intros m (_ & Ff & _ & _ & _ & Nm). unfold mat_all. apply Forall_app. split; [|exact Nm].
  apply Forall_flat_map. eapply Forall_impl; [|exact Ff]. intros f (_ & Fs & _ & _ & _ & Nf). unfold file_all.
  apply Forall_app. split; [|exact Nf]. apply Forall_flat_map. eapply Forall_impl; [|exact Fs].
  intros s (_ & _ & _ & _ & Ns). exact Ns.
Qed.
(** a tape without TEND record *)
Theorem C28_no_tend : forall t, (forall i, ~ tend_line (nth_line t i)) -> rejected (index_tape t).
Proof.
  intros t H. apply C43_otherwise_rejected. intros (src & Ok & (u & -> & Eu)).
  pose proof (tape_noLF src Ok) as N. set (ls := x_tpid src :: flat_map mat_all (x_mats src)) in *.
  apply (H (length ls)). replace (nth_line (lines_text ls ++ u) (length ls)) with (x_tend src).
  - apply Ok.
  - rewrite <- (Nat.add_0_r (length ls)), <- drop_lines_nth, drop_lines_lines by exact N. cbn [nth_line]. now symmetry.
Qed.

(** tapes as in TreeSpec.v except that section numbers within a file or file
    numbers within a material may be repeated *)
Definition tape_shape (t : tape_src) : Prop :=
  (exists i, tpid_line (x_tpid t) i) /\ noLF (x_tpid t)
  /\ Forall mat_shape (x_mats t) /\ separated_all (x_mats t)
  /\ tend_line (x_tend t) /\ noLF (x_tend t).
Theorem C28_duplicates : forall src t, tape_shape src -> tape_text src t ->
  (exists m, In m (x_mats src) /\
     (~ NoDup (map f_mf (x_files m)) \/ exists f, In f (x_files m) /\ ~ NoDup (map x_mt (x_secs f)))) ->
  rejected (index_tape t).
Proof.
  intros src t (_ & Nt & F & Sep & Te & Ne) (u & Et & Eu) (m & Hm & Hd).
  apply C43_otherwise_rejected. intros (src' & (_ & Nt' & F' & Sep' & Te' & Ne') & (u' & Et' & Eu')).
  assert (A : mats_gen mat_raw (lines_text (flat_map mat_all (x_mats src)) ++ u) (map (fun m => (m_mat m, raw_mat m)) (x_mats src)) (snd (next_line u))).
  { apply (mats_fwd_raw _ (x_tend src)); auto. rewrite <- Eu. now destruct (next_line u). }
  assert (B : mats_gen mat_raw (lines_text (flat_map mat_all (x_mats src')) ++ u') (map (fun m => (m_mat m, raw_mat m)) (x_mats src')) (snd (next_line u'))).
  { apply (mats_fwd_raw _ (x_tend src')); auto; [|rewrite <- Eu'; now destruct (next_line u')].
    eapply Forall_impl; [apply mat_ok_shape|exact F']. }
  assert (E : lines_text (flat_map mat_all (x_mats src)) ++ u = lines_text (flat_map mat_all (x_mats src')) ++ u').
  { rewrite Et in Et'. rewrite !lines_cons in Et'.
    assert (K := f_equal next_line Et'). rewrite !next_line_app in K by assumption. now injection K. }
  rewrite E in A. destruct (mats_fun mat_raw mat_raw_det _ _ _ A _ _ B) as [Er _].
  apply (in_map (fun m => (m_mat m, raw_mat m))) in Hm. rewrite Er in Hm. apply in_map_iff in Hm.
  destruct Hm as (m' & Em & Hm'). rewrite Forall_forall in F'. destruct (F' m' Hm') as (_ & Ff & _ & Nf & _).
  injection Em as _ Em.
  assert (Emf : map f_mf (x_files m') = map f_mf (x_files m)).
  { apply (f_equal (map fst)) in Em. unfold raw_mat in Em. rewrite !map_map in Em. exact Em. }
  destruct Hd as [Hd|(f & Hf & Hd)]; [apply Hd; now rewrite <- Emf|].
  apply (in_map (fun f => (f_mf f, raw_file f))) in Hf. change (In (f_mf f, raw_file f) (raw_mat m)) in Hf.
  rewrite <- Em in Hf. apply in_map_iff in Hf. destruct Hf as (f' & Ef & Hf'). injection Ef as _ Ef.
  rewrite Forall_forall in Ff. destruct (Ff f' Hf') as (_ & _ & _ & N & _). apply Hd.
  replace (map x_mt (x_secs f)) with (map x_mt (x_secs f')); [exact N|].
  apply (f_equal (map fst)) in Ef. unfold raw_file in Ef. rewrite !map_map in Ef. exact Ef.
Qed.

(** a section that is not closed by a line with MT = 0 before the text ends *)
Theorem C28_unterminated_section : forall h body,
  (exists d, division_line h d) -> body <> [] -> Forall body_line body -> Forall noLF (h :: body) ->
  rejected (index_sec (lines_text (h :: body))).
Proof.
  intros h body (d & D) Hn Hb N. inversion N as [|? ? Nh Nb]; subst.
  assert (Dh : div_at (lines_text (h :: body)) d (lines_text body)).
  { rewrite lines_cons'. now apply div_at_line. }
  unfold index_sec, bind. rewrite (div_at_fwd _ _ _ _ Dh).
  unfold rd_section.
  assert (Sv : never_other (on_err (b <- get_pos;; find_end (S (length b));;; p <- get_pos;; ret (mktsec (smat d) (smf d) (smt d) (upto (lines_text (h :: body)) p))) h_std (mkst (lines_text body) (0 + 1)))).
  { apply never_on_err. unfold bind, get_pos. cbn [buf]. pose proof (find_end_std (S (length (lines_text body))) (lines_text body) (0+1) ltac:(lia)) as F.
    destruct (find_end (S (length (lines_text body))) (mkst (lines_text body) (0 + 1))); auto. }
  assert (K : forall x s', on_err (b <- get_pos;; find_end (S (length b));;; p <- get_pos;; ret (mktsec (smat d) (smf d) (smt d) (upto (lines_text (h :: body)) p))) h_std (mkst (lines_text body) (0 + 1)) <> Ok x s').
  { intros x s' E. apply on_err_ok in E. unfold bind, get_pos in E. cbn [buf] in E.
    destruct (find_end (S (length (lines_text body))) (mkst (lines_text body) (0 + 1))) as [[] s1| |] eqn:F; try discriminate.
    apply find_end_inv in F. clear -F Hb Nb Hn. revert F. generalize (buf s1). intros p. revert Hn.
    induction body as [|a body IH]; intros Hn F; [congruence|].
    inversion Hb as [|? ? (m & f & x & C & Hx) Hb']; inversion Nb as [|? ? Na Nb']; subst. rewrite lines_cons' in F.
    assert (Nx := next_line_app a (lines_text body) Na).
    inversion F as [l b m' f' r N' C'|l b m' f' x' r p' N' C' Hx' Hb2 Hk]; subst; rewrite Nx in N'; injection N' as <- <-.
    - destruct C as (_ & _ & C), C' as (_ & _ & C'). congruence.
    - apply IH; auto. intros ->. now apply Hb2. }
  unfold rejected.
  destruct (on_err _ h_std (mkst (lines_text body) (0 + 1))) as [x s'|e s'|]; [elim (K x s' eq_refl)|exists e, s'; split; [reflexivity|exact Sv]|elim Sv].
Qed.

