(** PropPyTree.v -- C71: the tree, the strings and the files of the Python module. *)
From Coq Require Import ZifyBool ZifyNat.
From Verif Require Import Base Disco DiscoProofs Records RecordProofs PropSec451 Spec LineFacts Sections SecSpec SectionProofs Sec451 Tree TreeSpec TreeProofs TreeGrammar TreeMaps PropTree PropTree2 EditSpec PropEdit PropEdit2
  Typed TypedSpec TypedProofs PropTyped PropTyped2 PropAgree Classes PropClasses PropAgree2 Parse PropParse TypedEdit PropTypedEdit PropSave PyTree.
Open Scope Z_scope.
Notation length := List.length.

(** ** proofs *)
Lemma switch_class mf mt : py_switch mf mt = lib_class mf mt.
Proof.
  destruct mf as [|p|p]; [reflexivity| |reflexivity]. do 6 (try destruct p as [p|p|]); try reflexivity;
  (destruct mt as [|q|q]; [reflexivity| |reflexivity]; do 9 (try destruct q as [q|q|]); reflexivity).
Qed.
Lemma known_without30 mf : py_file_known mf = known_mf mf && negb (mf =? 30).
Proof. destruct mf as [|p|p]; [reflexivity| |reflexivity]. do 6 (try destruct p as [p|p|]); reflexivity. Qed.
Lemma py_section_iff s y : py_section_parse s = Val y <-> parsed_as s y.
Proof.
  unfold py_section_parse, parsed_as. rewrite switch_class. destruct (lib_class (ts_mf s) (ts_mt s)) as [c|]; [|split; [discriminate|intros (K & _); discriminate K]]. destruct y as [d y]. cbn [projT1 projT2]. split.
  - destruct (sec_parse (skind_of c) s) as [x| |] eqn:E; try discriminate. cbn [obind]. intros K. injection K as <- K. apply Eqdep_dec.inj_pair2_eq_dec in K; [|decide equality]. subst y. auto.
  - intros (K & E). injection K as <-. rewrite E. reflexivity.
Qed.
Lemma section_string B (k : skind B) rep inv (H : section_core k rep inv) x mat : 0 < mat < 10000 -> 0 < k_mf k < 100 -> good_ids x -> good_number k x -> rep (s_body x) -> inv (s_body x) ->
  exists t, pr_section k x mat (k_mf k) = Val t /\ forall rest ln, rd_parse k (mkst (t ++ rest) ln) = Ok x (mkst rest (ln + nc_section k x + 1)).
Proof.
  intros Hm Hf G N R I. destruct (so_round_trip _ _ _ H x mat Hm G N R I) as (body & A & Bd & C). set (t := body ++ SecSpec.send_line mat (k_mf k) ++ [LF]) in *.
  exists t. split; [exact A|]. intros rest ln. specialize (C rest ln). unfold parse_section in C. unfold rd_parse. unfold bind at 1 in C. unfold bind at 1.
  destruct (rd_sdiv (mkst (t ++ rest) ln)) as [h s1|e s1|] eqn:E; [|discriminate C|discriminate C]. assert (smat h = mat); [|subst mat; exact C].
  assert (Ns : noLF (SecSpec.send_line mat (k_mf k))) by (unfold SecSpec.send_line; repeat (apply noLF_app; split); auto using noLF_blanks, show_noLF).
  destruct Bd as (ls & E1 & E2 & E3). assert (Nl : Forall noLF ls) by (eapply Forall_impl; [|exact E3]; intros l (_ & Hl & _); exact Hl).
  destruct (send_text mat (k_mf k) Hm Hf) as [_ Rs].
  destruct (rd_sdiv_cols _ _ _ E) as (l & b & Nx & _ & Tl & _). cbn [buf] in Nx. unfold t in Nx. rewrite E1 in Nx. destruct ls as [|l0 ls].
  - cbn [flat_map app] in Nx. rewrite <- app_assoc in Nx. cbn [app] in Nx. rewrite next_line_app in Nx by exact Ns. injection Nx as <- <-.
    destruct (rd_sdiv_cols (mkst (SecSpec.send_line mat (k_mf k) ++ [LF]) 1) (mksdiv zero_cont mat (k_mf k) 0) (mkst [] 2)) as (l & b & Nx & _ & Tl' & _).
    { specialize (Rs [] 1). rewrite app_nil_r in Rs. exact Rs. }
    cbn [buf] in Nx. rewrite next_line_app in Nx by exact Ns. injection Nx as <- <-. cbn [smat smf smt] in Tl'. exact (proj1 (carries_fun _ _ _ _ _ _ _ Tl Tl')).
  - cbn [flat_map] in Nx. rewrite <- !app_assoc in Nx. cbn [app] in Nx. inversion Nl; subst. rewrite next_line_app in Nx by assumption.
    injection Nx as <- <-. inversion E3; subst. exact (proj1 (carries_fun _ _ _ _ _ _ _ Tl (endf_carries _ _ _ _ (Forall_inv E3)))).
Qed.

(** ** C71 *)
(** parse() of a tree section gives the section that the class of its MF and MT reads; it raises an exception if there is no such class *)
Theorem C71_section_parse : forall s,
  (forall y, py_section_parse s = Val y <-> parsed_as s y)
  /\ (lib_class (ts_mf s) (ts_mt s) = None -> py_section_parse s = Throw EStd)
  /\ (py_section_parse s = Undef <-> exists c, lib_class (ts_mf s) (ts_mt s) = Some c /\ sec_parse (skind_of c) s = Undef).
Proof.
  intros s. split; [apply py_section_iff|]. split; unfold py_section_parse; rewrite switch_class; [intros ->; reflexivity|].
  destruct (lib_class (ts_mf s) (ts_mt s)) as [c|]; [|split; [discriminate|intros (c & K & _); discriminate K]]. split.
  - destruct (sec_parse (skind_of c) s) eqn:E; try discriminate. intros _. exists c. auto.
  - intros (d & K & E). injection K as <-. rewrite E. reflexivity.
Qed.
(** parse() of a tree file: the sections are those that parse() of each tree section gives *)
Theorem C71_file_parse : forall f, made_file f -> ready_file f ->
  ((exists y, py_file_parse f = Val y) <-> known_mf (tf_mf f) = true /\ forall mt s, file_section f mt = Val s -> exists y, py_section_parse s = Val y)
  /\ forall y, py_file_parse f = Val y -> yf_mf y = tf_mf f /\ (forall mt, yfile_has y mt = file_has f mt)
       /\ forall mt v, yfile_section y mt = Val v <-> exists s, file_section f mt = Val s /\ py_section_parse s = Val v.
Proof.
  intros f Mf R. assert (N30 : tf_mf f <> 30) by (destruct R as (_ & _ & _ & R & _); exact R).
  unfold py_file_parse. rewrite known_without30. replace (tf_mf f =? 30) with false by lia. rewrite andb_true_r. destruct (known_mf (tf_mf f)) eqn:K.
  - destruct (C66_file f Mf R K) as (A & B). split.
    + rewrite A. split; [intros H; split; [reflexivity|]|intros (_ & H)]; intros mt s E; destruct (H mt s E) as (y & Hy); exists y; now apply py_section_iff.
    + intros y E. destruct (B y E) as (B1 & B2 & B3). split; [exact B1|]. split; [exact B2|]. intros mt v. rewrite B3. split; intros (s & E1 & E2); exists s; (split; [exact E1|now apply py_section_iff]).
  - split; [split; [intros (y & H); discriminate H|intros (H & _); discriminate H]|discriminate].
Qed.
(** file 30 and the files without a class raise *)
Theorem C71_file_unknown : forall f, tf_mf f = 30 \/ known_mf (tf_mf f) = false -> py_file_parse f = Throw EStd.
Proof. intros f H. unfold py_file_parse. rewrite known_without30. replace (known_mf (tf_mf f) && negb (tf_mf f =? 30)) with false by (destruct H as [->|H]; [reflexivity|now rewrite H]). reflexivity. Qed.
Theorem C71_material_parse : forall x, made_mat x -> ready x ->
  ((exists y, py_mat_parse x = Val y) <-> forall mf mt s, mat_section x mf mt = Val s -> exists y, py_section_parse s = Val y)
  /\ forall y, py_mat_parse x = Val y -> ym_mat y = tm_mat x /\ (forall mf mt, ymat_hasMFMT y mf mt = mat_hasMFMT x mf mt)
       /\ forall mf mt v, ymat_section y mf mt = Val v <-> exists s, mat_section x mf mt = Val s /\ py_section_parse s = Val v.
Proof.
  intros x Mx R. unfold py_mat_parse. destruct (C66_material x Mx R) as (A & B). split.
  - rewrite A. split; intros H mf mt s E; destruct (H mf mt s E) as (y & Hy); exists y; now apply py_section_iff.
  - intros y E. destruct (B y E) as (B1 & _ & B2 & B3). split; [now symmetry|]. split; [intros mf mt; now symmetry|]. intros mf mt v. rewrite B3. split; intros (s & E1 & E2); exists s; (split; [exact E1|now apply py_section_iff]).
Qed.
(** tape.material( mat ): the material if there is one, a sequence if there are more, IndexError if there is none *)
Theorem C71_material : forall T f, tape_shows T f -> forall mat,
  py_material T mat = match f mat with [] => Throw EOor | [m] => Val (PyOne m) | l => Val (PyMany l) end.
Proof.
  intros T f H mat. destruct (H mat) as (A & _ & C). unfold py_material. rewrite A, C. destruct (f mat) as [|m [|m' l]]; [reflexivity|reflexivity|]. cbn [length]. replace (_ =? 1) with false by lia. reflexivity.
Qed.
(** from_string gives back what to_string printed, whatever follows in the string *)
Theorem C71_section_string : forall x mat, 0 < mat < 10000 -> good_section x ->
  exists t, py_section_string x mat (MF_of x) = Val t /\ (forall rest, py_section (projT1 x) (t ++ rest) = Val (projT2 x))
    /\ exists s, any_section x mat = Val s /\ ts_text s = t /\ py_section_parse s = Val x.
Proof.
  intros x mat Hm G. destruct (good_section_tree x mat Hm G) as (s & E & _ & _ & _ & P & _). destruct x as [c x]. destruct G as (G1 & G2 & G3 & G4). unfold MF_of. cbn [projT1 projT2] in *.
  destruct (section_string _ _ _ _ (lib_core c) x mat Hm (proj1 (tk_mf _ _ _ _ _ _ lib_table c)) G1 G2 G3 G4) as (t & A & B). exists t. split; [exact A|]. split; [intros rest; unfold py_section, run; rewrite B; reflexivity|].
  exists s. split; [exact E|]. split; [|now apply py_section_iff]. unfold any_section, to_section in E. cbn [projT1 projT2] in E. rewrite A in E. cbn [obind] in E. injection E as <-. reflexivity.
Qed.
Theorem C71_file_string : forall f mat, 0 < mat < 10000 -> good_file f ->
  exists t, py_file_string f mat = Val t /\ (forall rest, py_file (yf_mf f) (t ++ rest) = Val f)
    /\ exists F, to_file skind_of f mat = Val F /\ file_content F = Val t /\ py_file_parse F = Val f.
Proof.
  intros f mat Hm G. destruct (C31_library f mat Hm G) as (t & n & A & B). exists t. split; [exact A|]. split; [intros rest; unfold py_file, run; rewrite B; reflexivity|].
  destruct (proj1 C30_library f mat Hm G) as (F & E1 & _ & E3 & E4 & E5). exists F. split; [exact E1|]. split; [now rewrite <- E4|]. unfold py_file_parse. rewrite E3.
  replace (py_file_known (yf_mf f)) with true; [exact E5|]. symmetry. destruct G as (Ne & _ & Gs). destruct (yf_secs f) as [|p l]; [congruence|]. apply Forall_cons_iff in Gs. destruct Gs as ((_ & <- & _) & _). destruct (projT1 (snd p)); reflexivity.
Qed.
Theorem C71_material_string : forall m, good_material m ->
  exists t, py_mat_string m = Val t /\ (forall rest, py_mat (t ++ rest) = Val m)
    /\ exists X, to_mat skind_of m = Val X /\ mat_content X = Val t /\ py_mat_parse X = Val m.
Proof.
  intros m G. destruct (C32_library_material m G) as (t & n & A & B). exists t. split; [exact A|]. split; [intros rest; unfold py_mat, run; rewrite B; reflexivity|].
  destruct (proj2 C30_library m G) as (X & E1 & _ & E4 & E5). exists X. split; [exact E1|]. split; [now rewrite <- E4|exact E5].
Qed.
(** a tape written to a file and read from it *)
Theorem C71_to_file : forall T i name d, made_tape T -> tt_tpid T = Some i -> (length (tptext i) <= 66)%nat -> noLF (tptext i) ->
  (forall mat l x, tape_material T mat = Val l -> In x l -> has_section x -> savable x) -> d_open d name = true ->
  exists d' T' t, py_to_file T name d = (d', Val tt) /\ tape_content T = Val t /\ d_files d' name = Some t /\ (forall n, n <> name -> d_files d' n = d_files d n)
    /\ py_from_file name d' = Val T' /\ tt_tpid T' = Some (mktpid (lj 66 (tptext i)) 0) /\ same_materials T T' /\ tape_content T' = Val t.
Proof.
  intros T i name d Mt Ti Li Ni Hs Hd. destruct (C70_tape T i Mt Ti Li Ni Hs) as (t & T' & s & A & B & C & D & E).
  unfold py_to_file. rewrite A, Hd. eexists. exists T', t. split; [reflexivity|]. split; [reflexivity|]. cbn [d_files]. assert (K : (if list_eq_dec Ascii.ascii_dec name name then Some t else d_files d name) = Some t) by (destruct (list_eq_dec _ name name); [reflexivity|congruence]).
  split; [exact K|]. split; [intros n Hn; destruct (list_eq_dec _ n name); [congruence|reflexivity]|]. split; [|auto]. unfold py_from_file, from_file. cbn [d_files]. rewrite K, B. reflexivity.
Qed.
Theorem C71_to_file_fails : forall T name d, (forall e, tape_content T = Throw e -> snd (py_to_file T name d) = Throw e) /\ (tape_content T = Undef -> snd (py_to_file T name d) = Undef)
  /\ forall n, n <> name -> d_files (fst (py_to_file T name d)) n = d_files d n.
Proof.
  intros T name d. unfold py_to_file. destruct (tape_content T); (split; [intros e' E; try discriminate E; injection E as <-; reflexivity|]); (split; [intros E; try discriminate E; reflexivity|]);
    intros n Hn; cbn [fst]; try reflexivity; destruct (d_open d name); try reflexivity; cbn [d_files]; destruct (list_eq_dec _ n name); congruence.
Qed.
(** a file that cannot be written is not reported *)
Theorem C71_to_file_refuted : forall T name d t, tape_content T = Val t -> d_open d name = false -> py_to_file T name d = (d, Val tt).
Proof. intros T name d t E H. unfold py_to_file. rewrite E, H. reflexivity. Qed.
(** a tape that cannot be written empties the file *)
Definition unwritable : ttape := mkttape None [(0, mktmat 0 [(3, mktfile 0 3 [(1, mktsec 0 3 1 [LF])])])].
Theorem C71_truncated_refuted : made_tape unwritable /\ forall name d, d_open d name = true ->
  exists d', py_to_file unwritable name d = (d', Throw EStd) /\ d_files d' name = Some [].
Proof.
  split.
  - change unwritable with (tape_insert (fst (mop_run (PutSection (mktsec 0 3 1 [LF])) (mktmat 0 []))) (mkttape None [])). apply mt_insert; [apply mm_op; [exact Logic.I|constructor]|constructor].
  - intros name d H. unfold py_to_file. change (tape_content unwritable) with (@Throw text EStd). rewrite H. eexists. split; [reflexivity|]. cbn [d_files]. destruct (list_eq_dec _ name name); [reflexivity|congruence].
Qed.
Example C71_example : exists T s i, index_tape two_sends = Ok T s /\ made_tape T /\ tt_tpid T = Some i /\ (length (tptext i) <= 66)%nat /\ noLF (tptext i)
  /\ (forall mat l x, tape_material T mat = Val l -> In x l -> has_section x -> savable x) /\ good_material PropClasses.ex_mat /\ good_file ex_f3 /\ good_section (ex_3 102)
  /\ d_open (mkdisk (fun _ => None) (fun _ => true)) [] = true.
Proof.
  destruct C70_example as (T & s & i & A & B & C & D & E & _ & F). exists T, s, i. do 5 (split; [assumption|]). split; [intros mat l x K1 K2 _; exact (F mat l x K1 K2)|]. split; [apply PropClasses.C32_example|]. split; [exact C31_example|]. split; [apply ex_3_good; lia|reflexivity].
Qed.
