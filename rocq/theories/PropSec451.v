(** PropSec451.v -- section 1/451 (C36), sections of a tree and typed sections
    (C30), the update of the directory (C26, C27).
    Vocabulary: SecSpec.v, Sec451Spec.v. *)
From Coq Require Import ZifyBool ZifyNat String Sorted.
From Verif Require Import Base Disco DiscoProofs Records RecordProofs RecordRT RecordSound Layout
  RealRound RealProofs Spec Normal LineFacts Sections SecSpec Codec SectionProofs PropRecords ExKit
  Tree TreeSpec TreeProofs TreeGrammar TreeMaps PropTree PropTree2 EditSpec PropEdit PropEdit2 PropClean
  Sec451 Sec451Spec Sec451Proofs.
Open Scope Z_scope.
Open Scope list_scope.
Notation length := List.length.

(** ** C36 *)
Theorem C36_section : section_codec sec_451 rep_descr inv_descr.
Proof. exact codec_451. Qed.

Theorem C36_nc : forall x, inv_descr (s_body x) ->
  nc_section sec_451 x = 4 + len (d_text (s_body x)) + len (d_index (s_body x)).
Proof.
  intros x (_ & _ & _ & _ & _ & _ & I7 & I8). unfold nc_section. cbn [k_nc sec_451]. unfold nc_descr, NWD, NXC.
  rewrite (len_i32 _ _ I7), (len_i32 _ _ I8). unfold len. lia.
Qed.

(** the string constructor and description(): lines in, the same lines out; a
    missing final newline is added *)
Theorem C36_description : forall lrp lfi nlib nmod elis sta lis liso nfor awi emax lrel nsub nver temp rtol ldrv idx ls l,
  Forall noLF ls -> noLF l ->
  let b t := make_descr lrp lfi nlib nmod elis sta lis liso nfor awi emax lrel nsub nver temp rtol ldrv t idx in
  (ls <> [] -> d_text (b (lines_text ls)) = ls /\ description (b (lines_text ls)) = lines_text ls)
  /\ (l <> [] -> d_text (b (lines_text ls ++ l)) = ls ++ [l]
                 /\ description (b (lines_text ls ++ l)) = lines_text ls ++ l ++ [LF]).
Proof.
  intros until l. intros N Nl b. unfold b, make_descr, description. cbn [d_text]. split; intros K.
  - unfold lines_text. rewrite <- (app_nil_r (flat_map _ ls)), split_lines_text by exact N. cbn [split_lines]. rewrite !app_nil_r.
    split; [reflexivity|]. now apply join_text.
  - unfold lines_text. rewrite split_lines_text, split_last by assumption. split; [reflexivity|].
    rewrite join_text by now destruct ls. rewrite flat_map_app. cbn [flat_map]. now rewrite app_nil_r.
Qed.
(** the objects made by the string constructor are consistent *)
Theorem C36_constructor : forall lrp lfi nlib nmod elis sta lis liso nfor awi emax lrel nsub nver temp rtol ldrv idx t,
  int32 lrp -> int32 lfi -> int32 nlib -> int32 nmod -> idx <> [] -> len idx < 2 ^ 31 -> len (split_lines t) < 2 ^ 31 ->
  inv_descr (make_descr lrp lfi nlib nmod elis sta lis liso nfor awi emax lrel nsub nver temp rtol ldrv t idx).
Proof.
  intros until t. intros H1 H2 H3 H4 K L1 L2. unfold inv_descr, make_descr. cbn [d_lrp d_lfi d_nlib d_nmod d_c2 d_text d_index n1 n2].
  unfold len in *. assert (0 < length idx)%nat by (destruct idx; [congruence|cbn; lia]).
  rewrite !i32_id by (unfold int32; lia).
  refine (conj H1 (conj H2 (conj H3 (conj H4 (conj _ (conj _ (conj _ _))))))); try lia.
  all: apply as_int_eq; apply i32_id; unfold int32; lia.
Qed.
(** lines shorter than 66 columns come back padded with blanks *)
Definition padded_texts (x : sect descr) : sect descr :=
  let b := s_body x in
  mksect (s_za x) (s_awr x) (s_mt x)
    (mkdescr (d_lrp b) (d_lfi b) (d_nlib b) (d_nmod b) (d_c0 b) (d_c1 b) (d_c2 b)
       (map (fun t => t ++ blanks (66 - length t)) (d_text b)) (d_index b)).
Theorem C36_padding : forall x mat, 0 < mat < 10000 -> good_ids x -> s_mt x = 451 ->
  endf_cont (d_c0 (s_body x)) -> endf_cont (d_c1 (s_body x)) -> endf_cont (d_c2 (s_body x)) ->
  Forall rep_dir (d_index (s_body x)) -> inv_descr (s_body x) ->
  Forall (fun t => (length t <= 66)%nat /\ noLF t) (d_text (s_body x)) ->
  exists t, pr_section sec_451 x mat 1 = Val t
    /\ forall rest ln, parse_section sec_451 mat (mkst (t ++ rest) ln)
                       = Ok (padded_texts x) (mkst rest (ln + nc_section sec_451 x + 1)).
Proof.
  intros x mat Hm G N R1 R2 R3 R4 I Ht.
  assert (E : pr_section sec_451 x mat 1 = pr_section sec_451 (padded_texts x) mat 1).
  { unfold pr_section. f_equal. f_equal. f_equal.
    cbn [k_print sec_451]. unfold pr_descr, padded_texts. cbn [s_body s_mt d_c0 d_c1 d_c2 d_text d_index].
    do 3 f_equal. f_equal. clear -Ht. induction Ht as [|t l [H1 H2] _ IH]; [reflexivity|]. cbn [map flat_map].
    rewrite IH. f_equal. unfold pr_text. f_equal. change (t ++ blanks (66 - length t)) with (lj 66 t). symmetry. now apply lj_lj. }
  rewrite E.
  assert (Hl : len (d_text (s_body (padded_texts x))) = len (d_text (s_body x))).
  { unfold len, padded_texts. cbn [s_body d_text]. now rewrite map_length. }
  destruct (sc_round_trip _ _ _ (proj1 codec_451) (padded_texts x) mat Hm) as (body & A & B & C).
  - exact G.
  - exact (conj N Logic.I).
  - refine (conj R1 (conj R2 (conj R3 (conj _ R4)))). cbn [s_body padded_texts d_text]. apply Forall_map.
    eapply Forall_impl; [|exact Ht]. cbv beta. intros t [H1 H2]. split; [apply lj_len, H1|].
    apply noLF_app. split; [exact H2|apply noLF_blanks].
  - destruct I as (I1 & I2 & I3 & I4 & I5 & I6 & I7 & I8).
    refine (conj I1 (conj I2 (conj I3 (conj I4 (conj I5 (conj I6 (conj _ I8))))))). rewrite Hl. exact I7.
  - exists (body ++ SecSpec.send_line mat 1 ++ [LF]). split; [exact A|]. intros rest ln. cbn [k_mf sec_451] in C. rewrite C.
    do 2 f_equal. f_equal. f_equal. unfold nc_section. cbn [k_nc sec_451]. unfold nc_descr, NWD, NXC, len in *. cbn [s_body padded_texts d_text d_index] in *.
    now rewrite map_length.
Qed.
(** a description line of more than 66 columns is not cut: the printed line is
    longer than 80 columns, and no text printed for it reads back *)
Theorem C36_long_line_refuted : forall t mat mf mt, (66 < length t)%nat -> good_tail mat mf mt ->
  (81 < length (pr_text t mat mf mt))%nat
  /\ forall s t' s', rd_text mat mf mt s = Ok t' s' -> t' <> t.
Proof.
  intros t mat mf mt L G. split.
  - unfold pr_text, lj. rewrite !app_length.
    assert (H : length (pr_tail mat mf mt) = 15%nat).
    { destruct (layout_text [] mat mf mt) as (ls & A & B & C).
      - cbn. lia.
      - intros [].
      - now apply good_oktail.
      - destruct ls as [|l [|l' ls]]; cbn [length] in B; try lia.
        rewrite Forall_forall in C. destruct (C l (or_introl eq_refl)) as (C1 & _).
        apply (f_equal (@length ascii)) in A. unfold pr_text, lj in A. unfold unlines in A. cbn [flat_map] in A.
        rewrite !app_length in A. cbn [length app] in A. unfold blanks in A. rewrite repeat_length in A. lia. }
    rewrite H. lia.
  - intros s t' s' E ->. unfold rd_text in E. apply on_err_ok in E. apply bind_ok in E. destruct E as (a & s1 & E1 & E).
    apply bind_ok in E. destruct E as (? & s2 & E2 & E). injection E as -> _.
    destruct (next_line (buf s)) as [l b] eqn:Nl. assert (I := inl_start s l b Nl).
    destruct (rd_chars_inl _ _ _ _ _ _ _ I E1) as (K & _). subst t. unfold lj, col in L. rewrite app_length in L.
    unfold blanks in L. rewrite repeat_length in L.
    assert (length (firstn 66 (skipn 0 l)) <= 66)%nat by apply firstn_le_length. lia.
Qed.

(** a concrete section *)
Definition x_text1 : text := txt "abc" ++ blanks 63.
Definition x_451 : sect descr :=
  mksect 1001 r_one 451
    (mkdescr 1 0 4 0 (mkcont r_pi r_one 0 0 0 6) (mkcont r_one r_tiny 1 0 10 8) (mkcont r_pi r_one 0 0 2 3)
       [x_text1; blanks 66] [mkdir 1 451 9 5; mkdir 3 1 4 0; mkdir 3 2 4 1]).
Example C36_example : meets sec_451 rep_descr inv_descr x_451.
Proof.
  unfold meets, rep_descr, inv_descr. split; [|split; [|split]]; cbn [s_body x_451 d_c0 d_c1 d_c2 d_text d_index d_lrp d_lfi d_nlib d_nmod n1 n2].
  - xt.
  - split; [reflexivity|exact Logic.I].
  - split; [xt|]. split; [xt|]. split; [xt|]. split.
    + repeat constructor; try (apply noLF_blanks). apply noLF_app. split; [now apply no_lf_ok|apply noLF_blanks].
    + unfold rep_dir. cbn [dmf dmt dnc dmod]. xt.
  - xt.
Qed.

(** ** C30: a typed section in a tree
    For every modelled section class: the tree section made from a typed section
    has its numbers and its printed text, and parsing it gives the typed section. *)
Lemma carries_fun a b c a' b' c' l : carries a b c l -> carries a' b' c' l -> a = a' /\ b = b' /\ c = c'.
Proof. unfold carries. intros (A & B & C) (A' & B' & C'). rewrite A in A'. rewrite B in B'. rewrite C in C'. split; [|split]; congruence. Qed.
Lemma endf_carries mat mf mt l : endf_line mat mf mt l -> carries mat mf mt l.
Proof.
  intros (_ & _ & A & B & C & _). unfold carries. rewrite A, B, C.
  change (right_justified 4 mat) with (pr_int 4 mat). change (right_justified 2 mf) with (pr_int 2 mf). change (right_justified 3 mt) with (pr_int 3 mt).
  split; [|split]; apply read_int_show.
Qed.
Theorem C30_section : forall B (k : skind B) rep inv, section_core k rep inv ->
  forall x mat, 0 < mat < 10000 -> 0 < k_mf k < 100 -> good_ids x -> good_number k x -> rep (s_body x) -> inv (s_body x) ->
  exists s, to_section k x mat = Val s
    /\ ts_mat s = mat /\ ts_mf s = k_mf k /\ ts_mt s = s_mt x
    /\ pr_section k x mat (k_mf k) = Val (ts_text s)
    /\ line_count s (nc_section k x)
    /\ sec_parse k s = Val x.
Proof.
  intros B k rep inv H x mat Hm Hf G N R I.
  destruct (so_round_trip _ _ _ H x mat Hm G N R I) as (body & A & Bd & C).
  set (t := body ++ SecSpec.send_line mat (k_mf k) ++ [LF]) in *.
  exists (mktsec mat (k_mf k) (s_mt x) t). unfold to_section. rewrite A. cbn [obind ts_mat ts_mf ts_mt ts_text].
  split; [reflexivity|]. split; [reflexivity|]. split; [reflexivity|]. split; [reflexivity|]. split; [reflexivity|].
  destruct (send_text mat (k_mf k) Hm Hf) as [_ Rs].
  assert (Ns : noLF (SecSpec.send_line mat (k_mf k))).
  { unfold SecSpec.send_line. repeat (apply noLF_app; split); auto using noLF_blanks, show_noLF. }
  destruct Bd as (ls & E1 & E2 & E3).
  assert (Nl : Forall noLF ls).
  { eapply Forall_impl; [|exact E3]. intros l (_ & Hl & _). exact Hl. }
  split.
  - exists (ls ++ [SecSpec.send_line mat (k_mf k)]). cbn [ts_text]. rewrite flat_map_app. cbn [flat_map]. rewrite app_nil_r.
    split; [unfold t; now rewrite E1|]. split; [apply Forall_app; auto|]. rewrite app_length. cbn [length]. lia.
  - unfold sec_parse. cbn [ts_text]. specialize (C [] 1). rewrite app_nil_r in C.
    unfold parse_section in C. unfold rd_parse. unfold bind at 1 in C. unfold bind at 1.
    destruct (rd_sdiv (mkst t 1)) as [h s1|e s1|] eqn:E; [|discriminate C|discriminate C].
    assert (smat h = mat).
    { destruct (rd_sdiv_cols _ _ _ E) as (l & b & Nx & _ & Tl & _). cbn [buf] in Nx.
      unfold t in Nx. rewrite E1 in Nx. destruct ls as [|l0 ls].
      - cbn [flat_map app] in Nx.
        rewrite next_line_app in Nx by exact Ns. injection Nx as <- <-.
        destruct (rd_sdiv_cols (mkst (SecSpec.send_line mat (k_mf k) ++ [LF]) 1) (mksdiv zero_cont mat (k_mf k) 0) (mkst [] 2)) as (l & b & Nx & _ & Tl' & _).
        { specialize (Rs [] 1). rewrite app_nil_r in Rs. exact Rs. }
        cbn [buf] in Nx. rewrite next_line_app in Nx by exact Ns. injection Nx as <- <-. cbn [smat smf smt] in Tl'.
        exact (proj1 (carries_fun _ _ _ _ _ _ _ Tl Tl')).
      - cbn [flat_map] in Nx. rewrite <- !app_assoc in Nx. cbn [app] in Nx. inversion Nl; subst. rewrite next_line_app in Nx by assumption.
        injection Nx as <- <-. inversion E3; subst. exact (proj1 (carries_fun _ _ _ _ _ _ _ Tl (endf_carries _ _ _ _ (Forall_inv E3)))). }
    subst mat. rewrite C. reflexivity.
Qed.

(** ** the new index *)
Lemma dir_entries_nums copy secs : forall b,
  map (fun d => (dmf d, dmt d, dnc d)) (dir_entries copy b secs)
  = map (fun p : Z * tsec => (ts_mf (snd p), ts_mt (snd p), sec_NC (snd p))) secs.
Proof.
  induction secs as [|[k s] r IH]; intros b; [reflexivity|]. cbn [dir_entries map snd].
  destruct (if copy then _ else _) as [md b']. cbn [map dmf dmt dnc]. now rewrite IH.
Qed.
Lemma new_index_nums copy old m : map (fun d => (dmf d, dmt d, dnc d)) (new_index copy old m)
  = map (fun s => (ts_mf s, ts_mt s, sec_NC s)) (all_secs m).
Proof.
  unfold new_index, all_secs. induction (tm_files m) as [|[k f] r IH]; [reflexivity|]. cbn [flat_map snd].
  rewrite !map_app, IH, dir_entries_nums. f_equal. rewrite map_map. reflexivity.
Qed.
Lemma find_entry_spec mf mt l :
  match find_entry mf mt l with
  | Some (d, l') => dmf d = mf /\ dmt d = mt /\ exists p r, l = p ++ l' /\ l' = d :: r
  | None => forall d, In d l -> ~ (dmf d = mf /\ dmt d = mt)
  end.
Proof.
  induction l as [|d l IH]; cbn [find_entry]; [intros d []|].
  destruct ((dmf d =? mf) && (dmt d =? mt)) eqn:E.
  - split; [lia|]. split; [lia|]. exists [], l. auto.
  - destruct (find_entry mf mt l) as [[d' l']|].
    + destruct IH as (A & B & p & r & C & D). split; [exact A|]. split; [exact B|]. exists (d :: p), r. split; [now rewrite C|exact D].
    + intros e [<-|He]; [lia|auto].
Qed.
Lemma ordered_app a b : ordered_index (a ++ b) ->
  ordered_index b /\ forall d e, In d a -> In e b -> dmf e = dmf d -> dmt d < dmt e.
Proof.
  induction a as [|x a IH]; intros H; [split; [exact H|intros d e []]|]. destruct H as [H1 H2]. destruct (IH H2) as [A B].
  split; [exact A|]. intros d e [<-|Hd] He E; [|eauto]. rewrite Forall_forall in H1. apply H1; [|exact E]. apply in_or_app. now right.
Qed.
Definition mods_ok (old : list dir) (d : dir) : Prop := mod_of old (dmf d) (dmt d) (dmod d).
Lemma dir_entries_mods mf old secs : ordered_index old -> ascending Z.lt (map (fun p : Z * tsec => ts_mt (snd p)) secs) ->
  Forall (fun p : Z * tsec => ts_mf (snd p) = mf) secs ->
  forall pre b, old = pre ++ b -> (forall d s, In d pre -> In s secs -> dmf d = mf -> dmt d < ts_mt (snd s)) ->
  Forall (mods_ok old) (dir_entries true b secs).
Proof.
  intros O. induction secs as [|[k s] r IH]; intros St Fm pre b Eb Hp; [constructor|].
  cbn [map snd] in St. apply strict_cons in St. destruct St as [Sf St]. inversion Fm as [|? ? Fm1 Fm2]; subst. cbn [snd] in *.
  cbn [dir_entries]. assert (F := find_entry_spec (ts_mf s) (ts_mt s) b). destruct (find_entry (ts_mf s) (ts_mt s) b) as [[d l]|].
  - destruct F as (A & B & p & q & C & D). subst b l.
    assert (Ok := O). rewrite app_assoc in Ok. apply ordered_app in Ok. destruct Ok as [_ Op].
    constructor.
    + left. exists d. cbn [dmf dmt dmod]. rewrite A, B. split; [|auto]. apply in_or_app. right. apply in_or_app. right. now left.
    + apply (IH St Fm2 (pre ++ p) (d :: q)); [now rewrite <- app_assoc|]. intros e t He Ht Em.
      assert (ts_mt s < ts_mt (snd t)). { rewrite Forall_forall in Sf. apply Sf. apply (in_map (fun p : Z * tsec => ts_mt (snd p))). exact Ht. }
      assert (dmt e < dmt d). { apply Op; auto; [now left|lia]. } lia.
  - constructor.
    + right. cbn [dmf dmt dmod]. split; [|reflexivity]. intros d Hd K. apply in_app_or in Hd. destruct Hd as [Hd|Hd]; [|exact (F d Hd K)].
      specialize (Hp d (k, s) Hd (or_introl eq_refl)). cbn [snd] in Hp. lia.
    + apply (IH St Fm2 pre b eq_refl). intros e t He Ht. apply Hp; [exact He|now right].
Qed.
Lemma dir_entries_zero secs : forall b, Forall (fun d => dmod d = 0) (dir_entries false b secs).
Proof. induction secs as [|[k s] r IH]; intros b; [constructor|]. cbn [dir_entries]. constructor; [reflexivity|apply IH]. Qed.
Lemma new_index_zero old m : Forall (fun d => dmod d = 0) (new_index false old m).
Proof. unfold new_index. induction (tm_files m) as [|[k f] r IH]; [constructor|]. cbn [flat_map]. apply Forall_app. split; [apply dir_entries_zero|exact IH]. Qed.
Lemma new_index_mods old m : wfm m -> ordered_index old -> Forall (mods_ok old) (new_index true old m).
Proof.
  intros [_ W] O. unfold new_index. induction W as [|[k f] r (E1 & E2 & W1 & W2) _ IH]; [constructor|]. cbn [flat_map snd] in *.
  apply Forall_app. split; [|exact IH]. apply (dir_entries_mods (tf_mf f) old (tf_secs f) O) with (pre := []).
  - replace (map (fun p : Z * tsec => ts_mt (snd p)) (tf_secs f)) with (map fst (tf_secs f)); [exact W1|].
    apply map_ext_in. intros p Hp. rewrite Forall_forall in W2. symmetry. apply W2, Hp.
  - eapply Forall_impl; [|exact W2]. cbv beta. tauto.
  - reflexivity.
  - intros d s [].
Qed.

(** ** replacing a section in place *)
Lemma mfind_split {A} k (v : A) l : mfind k l = Some v -> exists a b, l = a ++ (k, v) :: b /\ ~ In k (map fst a).
Proof.
  induction l as [|[j w] l IH]; cbn; [discriminate|]. destruct (Z.eqb_spec k j).
  - intros E. injection E as ->. subst. now exists [], l.
  - intros E. destruct (IH E) as (a & b & -> & N). exists ((j, w) :: a), b. split; [reflexivity|]. cbn. intuition congruence.
Qed.
Lemma mupd_split {A} k (v : A) f a b : ~ In k (map fst a) -> mupd k f (a ++ (k, v) :: b) = a ++ (k, f v) :: b.
Proof.
  induction a as [|[j w] a IH]; cbn; intros N; [now rewrite Z.eqb_refl|]. destruct (Z.eqb_spec k j); [intuition congruence|]. now rewrite IH by tauto.
Qed.
Lemma mrem_none {A} k (l : list (Z * A)) : ~ In k (map fst l) -> mrem k l = l.
Proof.
  unfold mrem. induction l as [|[j w] l IH]; cbn; intros N; [reflexivity|]. destruct (Z.eqb_spec j k); [intuition congruence|].
  cbn. now rewrite IH by tauto.
Qed.
Lemma place_split {A} k (v w : A) a b : ascending Z.lt (map fst (a ++ (k, v) :: b)) ->
  memplace k w (mrem k (a ++ (k, v) :: b)) = a ++ (k, w) :: b.
Proof.
  intros S. rewrite map_app in S. cbn [map fst] in S. destruct (strict_mid _ _ _ S) as [Sa Sb]. rewrite Forall_forall in Sa, Sb.
  assert (E : mrem k (a ++ (k, v) :: b) = a ++ b).
  { unfold mrem. rewrite filter_app. cbn [filter fst]. rewrite Z.eqb_refl. cbn [negb].
    change (mrem k a ++ mrem k b = a ++ b). rewrite !mrem_none; [reflexivity| |]; intros K; [apply Sb in K|apply Sa in K]; lia. }
  rewrite E. clear E S. induction a as [|[j u] a IH]; cbn [app memplace].
  - destruct b as [|[j u] b]; [reflexivity|]. cbn [memplace]. assert (k < j) by (apply Sb; now left). now replace (k <? j) with true by lia.
  - assert (j < k) by (apply Sa; now left). replace (k <? j) with false by lia. replace (k =? j) with false by lia.
    rewrite IH; [reflexivity|]. intros x Hx. apply Sa. now right.
Qed.
Lemma put_split m s s0 : wfm m -> look m (ts_mf s) (ts_mt s) = Some s0 -> ts_mat s = tm_mat m ->
  exists A B m', mat_put_sec s m = (m', None) /\ all_secs m = A ++ s0 :: B /\ all_secs m' = A ++ s :: B
    /\ tm_mat m' = tm_mat m /\ wfm m' /\ (s = s0 -> m' = m).
Proof.
  intros W L Em. unfold look in L. destruct (mfind (ts_mf s) (tm_files m)) as [f|] eqn:Ef; [|discriminate].
  assert (W' := wfm_op (PutSection s) m Logic.I W). cbn [mop_run] in W'.
  destruct (mfind_split _ _ _ Ef) as (fa & fb & Efs & Nf). destruct (mfind_split _ _ _ L) as (sa & sb & Ess & Ns).
  destruct W as [Wk Wf]. rewrite Forall_forall in Wf. destruct (Wf (ts_mf s, f)) as (E1 & E2 & Wff1 & Wff2).
  { rewrite Efs. apply in_or_app. right. now left. }
  cbn [fst snd] in *.
  assert (Ep : mat_put_sec s m = (mktmat (tm_mat m) (fa ++ (ts_mf s, mktfile (tf_mat f) (tf_mf f) (sa ++ (ts_mt s, s) :: sb)) :: fb), None)).
  { unfold mat_put_sec, ensure_file. rewrite has_find, Ef. unfold in_file. rewrite Ef. unfold file_put.
    replace (tf_mat f =? ts_mat s) with true by lia. replace (tf_mf f =? ts_mf s) with true by lia. cbn [negb orb].
    rewrite Efs, mupd_split by exact Nf. rewrite Ess. rewrite Ess in Wff1. now rewrite place_split. }
  rewrite Ep in W'. cbn [fst] in W'.
  exists (flat_map (fun p => map snd (tf_secs (snd p))) fa ++ map snd sa), (map snd sb ++ flat_map (fun p => map snd (tf_secs (snd p))) fb).
  eexists. split; [exact Ep|]. split; [|split; [|split; [|split]]].
  - unfold all_secs. rewrite Efs, flat_map_app. cbn [flat_map snd]. rewrite Ess, map_app. cbn [map snd]. now rewrite <- !app_assoc.
  - unfold all_secs. cbn [tm_files]. rewrite flat_map_app. cbn [flat_map snd tf_secs]. rewrite map_app. cbn [map snd]. now rewrite <- !app_assoc.
  - reflexivity.
  - apply W'.
  - intros ->. rewrite <- Ess. destruct f as [f1 f2 f3]. cbn [tf_mat tf_mf tf_secs] in *. rewrite <- Efs. now destruct m.
Qed.
Lemma StronglySorted_app {A} (R : A -> A -> Prop) a b : StronglySorted R a -> StronglySorted R b ->
  (forall x y, In x a -> In y b -> R x y) -> StronglySorted R (a ++ b).
Proof.
  intros Ha Hb H. induction Ha as [|x a Ha IH F]; [exact Hb|]. cbn [app]. constructor.
  - apply IH. intros u v Hu Hv. apply H; [now right|exact Hv].
  - apply Forall_app. split; [exact F|]. apply Forall_forall. intros y Hy. apply H; [now left|exact Hy].
Qed.
Lemma all_secs_sorted m : wfm m -> StronglySorted before (map numbers (all_secs m)).
Proof.
  intros [Wk Wf]. unfold all_secs. induction (tm_files m) as [|[k f] r IH]; [constructor|]. cbn [flat_map map fst snd] in *.
  apply strict_cons in Wk. destruct Wk as [K1 K2]. inversion Wf as [|? ? (E1 & E2 & S1 & S2) Wf']; subst. cbn [fst snd] in *.
  rewrite map_app. apply StronglySorted_app; [| |].
  - clear -S1 S2. induction (tf_secs f) as [|[j s] l IH]; [constructor|]. cbn [map fst snd] in *. apply strict_cons in S1. destruct S1 as [A B].
    inversion S2 as [|? ? [E1 E2] S2']; subst. cbn [fst snd] in *. constructor; [now apply IH|].
    rewrite map_map. apply Forall_map. apply Forall_forall. intros [i t] Ht. rewrite Forall_forall in S2', A.
    destruct (S2' _ Ht) as [E3 E4]. cbn [fst snd] in *. right. unfold numbers. cbn [fst snd]. split; [lia|].
    subst i. rewrite E1. apply A. apply (in_map fst) in Ht. exact Ht.
  - apply IH; assumption.
  - intros x y Hx Hy. rewrite map_map in Hx. apply in_map_iff in Hx. destruct Hx as ([i s] & <- & Hx).
    apply in_map_iff in Hy. destruct Hy as (t & <- & Hy). apply in_flat_map in Hy. destruct Hy as ([j g] & Hg & Hy).
    apply in_map_iff in Hy. destruct Hy as ([l u] & Eu & Hy). cbn [snd] in *. subst u.
    rewrite Forall_forall in Wf', K1, S2. destruct (S2 _ Hx) as [_ A1]. destruct (Wf' _ Hg) as (A2 & _ & _ & A3). cbn [fst snd] in *.
    rewrite Forall_forall in A3. destruct (A3 _ Hy) as [_ A4]. cbn [snd] in *. left. unfold numbers. cbn [fst snd].
    rewrite A1, A4, A2, E1. apply K1. apply (in_map fst) in Hg. exact Hg.
Qed.
Lemma all_secs_look m s : wfm m -> In s (all_secs m) -> look m (ts_mf s) (ts_mt s) = Some s.
Proof.
  intros [Wk Wf] H. unfold all_secs in H. apply in_flat_map in H. destruct H as ([k f] & Hf & H). apply in_map_iff in H.
  destruct H as ([j u] & Eu & Hs). cbn [snd] in *. subst u. rewrite Forall_forall in Wf. destruct (Wf _ Hf) as (E1 & E2 & S1 & S2). cbn [fst snd] in *.
  rewrite Forall_forall in S2. destruct (S2 _ Hs) as [E3 E4]. cbn [fst snd] in *. unfold look.
  assert (U : forall A (l : list (Z * A)) k v, ascending Z.lt (map fst l) -> In (k, v) l -> mfind k l = Some v).
  { clear. intros A l k v. induction l as [|[j w] l IH]; intros S []; cbn [map fst] in S; apply strict_cons in S; destruct S as [S1 S2].
    - injection H as -> ->. cbn. now rewrite Z.eqb_refl.
    - cbn. destruct (Z.eqb_spec k j); [|auto]. subst. rewrite Forall_forall in S1. apply (in_map fst) in H. apply S1 in H. cbn in H. lia. }
  rewrite E4, E1, E3, (U _ _ k f Wk Hf). now apply U.
Qed.

Lemma find_entry_suffix mf mt b d l : find_entry mf mt b = Some (d, l) -> In d b /\ incl l b.
Proof.
  intros E. assert (F := find_entry_spec mf mt b). rewrite E in F. destruct F as (_ & _ & p & r & -> & ->).
  split; [apply in_or_app; right; now left|]. intros x Hx. apply in_or_app. now right.
Qed.
Lemma dir_entries_source copy old secs : forall b, incl b old ->
  Forall (fun d => dmod d = 0 \/ exists e, In e old /\ dmod d = dmod e) (dir_entries copy b secs).
Proof.
  induction secs as [|[k s] r IH]; intros b Hb; [constructor|]. cbn [dir_entries]. destruct copy.
  - destruct (find_entry (ts_mf s) (ts_mt s) b) as [[d l]|] eqn:E.
    + apply find_entry_suffix in E. destruct E as [E1 E2]. constructor; [right; exists d; cbn; auto|]. apply IH. intros x Hx. auto.
    + constructor; [now left|]. now apply IH.
  - constructor; [now left|]. now apply IH.
Qed.
Lemma new_index_source copy old m : Forall (fun d => dmod d = 0 \/ exists e, In e old /\ dmod d = dmod e) (new_index copy old m).
Proof.
  unfold new_index. induction (tm_files m) as [|[k f] r IH]; [constructor|]. cbn [flat_map]. apply Forall_app. split; [|exact IH].
  apply dir_entries_source. apply incl_refl.
Qed.
Lemma parse_inv s x : sec_parse sec_451 s = Val x -> inv_descr (s_body x) /\ s_mt x = 451 /\ 1 <= s_za x /\ real_le rzero (s_awr x).
Proof.
  unfold sec_parse. destruct (rd_parse sec_451 (mkst (ts_text s) 1)) as [y s1|e s1|] eqn:E; [|discriminate|discriminate].
  intros K. injection K as ->. unfold rd_parse in E. apply bind_ok in E. destruct E as (h & s2 & _ & E).
  destruct (sc_sound _ _ _ (proj1 codec_451) _ _ _ _ _ E) as (_ & _ & _ & A & B & C & _ & D & _). auto.
Qed.
(** the section built by updateDirectory *)
Definition updated (old : sect descr) (idx : list dir) : sect descr :=
  let b := s_body old in
  mksect (s_za old) (s_awr old) 451
    (mkdescr (d_lrp b) (d_lfi b) (d_nlib b) (d_nmod b)
       (mkcont (c1 (d_c0 b)) (c2 (d_c0 b)) (i32 (l1 (d_c0 b))) (i32 (l2 (d_c0 b))) 0 (i32 (n2 (d_c0 b))))
       (mkcont (c1 (d_c1 b)) (c2 (d_c1 b)) (i32 (l1 (d_c1 b))) 0 (i32 (n1 (d_c1 b))) (i32 (n2 (d_c1 b))))
       (mkcont (c1 (d_c2 b)) (c2 (d_c2 b)) (i32 (l1 (d_c2 b))) 0 (i32 (len (d_text b))) (i32 (len idx)))
       (d_text b) idx).
Lemma rebuild_updated old idx : 1 <= s_za old -> real_le rzero (s_awr old) -> d_text (s_body old) <> [] ->
  Forall noLF (d_text (s_body old)) -> rebuild old idx = Val (updated old idx).
Proof.
  intros Hz Ha Ht Hn. unfold rebuild, make_section. replace (s_za old <? 1) with false by lia.
  apply rlt_zero in Ha. rewrite Ha. cbn [orb andb]. unfold make_descr, updated, description, len.
  now rewrite split_description by assumption.
Qed.
Lemma int32_cols z : int32 z -> in_cols 11 z.
Proof. unfold int32, in_cols. cbn. lia. Qed.
Lemma updated_ok old idx : good_ids old -> rep_descr (s_body old) -> inv_descr (s_body old) -> d_text (s_body old) <> [] ->
  idx <> [] -> len idx < 2 ^ 31 -> Forall rep_dir idx ->
  good_ids (updated old idx) /\ good_number sec_451 (updated old idx)
  /\ rep_descr (s_body (updated old idx)) /\ inv_descr (s_body (updated old idx)).
Proof.
  intros G (R1 & R2 & R3 & R4 & R5) (I1 & I2 & I3 & I4 & I5 & I6 & I7 & I8) Ht Hi Li Ri.
  split; [exact G|]. split; [split; [reflexivity|exact I]|]. unfold len in *.
  assert (0 < length idx)%nat by (destruct idx; [congruence|cbn; lia]).
  destruct I7 as [B7 I7]. unfold int32 in B7.
  split.
  - unfold rep_descr, updated. cbn [s_body d_c0 d_c1 d_c2 d_text d_index].
    assert (Z0 : in_cols 11 0) by (apply int32_cols; unfold int32; lia).
    split; [|split; [|split; [|split; [exact R4|exact Ri]]]].
    + destruct R1 as (A & B & _). split; [exact A|]. split; [exact B|]. unfold ints_fit. cbn [l1 l2 n1 n2].
      refine (conj _ (conj _ (conj Z0 _))); apply int32_cols, i32_range.
    + destruct R2 as (A & B & _). split; [exact A|]. split; [exact B|]. unfold ints_fit. cbn [l1 l2 n1 n2].
      refine (conj _ (conj Z0 (conj _ _))); apply int32_cols, i32_range.
    + destruct R3 as (A & B & _). split; [exact A|]. split; [exact B|]. unfold ints_fit. cbn [l1 l2 n1 n2].
      refine (conj _ (conj Z0 (conj _ _))); apply int32_cols, i32_range.
  - unfold inv_descr, updated. cbn [s_body d_lrp d_lfi d_nlib d_nmod d_c2 d_text d_index n1 n2]. unfold len.
    rewrite !i32_id by (unfold int32; lia).
    refine (conj I1 (conj I2 (conj I3 (conj I4 (conj _ (conj _ (conj _ _))))))); try lia.
    all: apply as_int_eq; apply i32_id; unfold int32; lia.
Qed.
Lemma look_section m mf mt s : mat_section m mf mt = Val s <-> look m mf mt = Some s.
Proof.
  unfold mat_section, mat_file, look, file_section, at_. destruct (mfind mf (tm_files m)) as [f|]; cbn [obind].
  - destruct (mfind mt (tf_secs f)); split; intros E; try discriminate; injection E as ->; reflexivity.
  - split; discriminate.
Qed.
Lemma look_nums m mf mt s : wfm m -> look m mf mt = Some s -> ts_mf s = mf /\ ts_mt s = mt.
Proof.
  intros [_ W] L. unfold look in L. destruct (mfind mf (tm_files m)) as [f|] eqn:E; [|discriminate].
  destruct (mfind_Forall _ _ _ _ W E) as (A & _ & _ & B). cbn [fst snd] in *. destruct (mfind_Forall _ _ _ _ B L) as [C D]. cbn [fst snd] in *. split; congruence.
Qed.
(** numbers of the sections fit the columns *)
Definition good_section (s : tsec) : Prop := 0 < ts_mf s < 100 /\ 0 < ts_mt s < 1000.

Section Update.
  Variables (copy : bool) (m : tmat) (s0 : tsec) (old : sect descr).
  Hypothesis W : wfm m.
  Hypothesis Hm : 0 < tm_mat m < 10000.
  Hypothesis Hs : mat_section m 1 451 = Val s0.
  Hypothesis Hp : sec_parse sec_451 s0 = Val old.
  Hypothesis Hg : good_ids old.
  Hypothesis Hr : rep_descr (s_body old).
  Hypothesis Ht : d_text (s_body old) <> [].
  Hypothesis Hf : first_451 m.
  Hypothesis Hn : Forall good_section (all_secs m).
  Hypothesis Hl : len (all_secs m) < 2 ^ 31.

  Lemma first_is : exists B, all_secs m = s0 :: B.
  Proof.
    apply look_section in Hs. destruct (look_nums _ _ _ _ W Hs) as [E1 E2].
    destruct (put_split m (mktsec (tm_mat m) 1 451 []) s0 W Hs eq_refl) as (A & B & _ & _ & E & _).
    destruct A as [|a A]; [now exists B|]. exfalso.
    assert (S := all_secs_sorted m W). rewrite E in S. cbn [app map] in S. inversion S as [|? ? _ F]; subst. clear S.
    rewrite Forall_forall in F. specialize (F (numbers s0)). rewrite map_app in F. cbn [map] in F.
    assert (K : before (numbers a) (numbers s0)) by (apply F, in_or_app; right; now left).
    assert (L : look m (ts_mf a) (ts_mt a) = Some a) by (apply all_secs_look; [exact W|]; rewrite E; now left).
    assert (H : mat_hasMFMT m (ts_mf a) (ts_mt a) = true).
    { unfold look in L. unfold mat_hasMFMT, file_has, mhas. destruct (mfind (ts_mf a) (tm_files m)); [|discriminate]. now rewrite L. }
    apply Hf in H. unfold before, numbers in K. cbn [fst snd] in K. lia.
  Qed.
  Lemma update_result : exists B d0 r m' s' n,
    all_secs m = s0 :: B /\ new_index copy (d_index (s_body old)) m = d0 :: r
    /\ n = 4 + len (d_text (s_body old)) + len (all_secs m)
    /\ update_directory copy m = Val (m', None) /\ wfm m' /\ tm_mat m' = tm_mat m
    /\ mat_section m' 1 451 = Val s' /\ ts_mf s' = 1 /\ ts_mt s' = 451 /\ all_secs m' = s' :: B
    /\ to_section sec_451 (updated old (mkdir 1 451 n (dmod d0) :: r)) (tm_mat m) = Val s'
    /\ sec_parse sec_451 s' = Val (updated old (mkdir 1 451 n (dmod d0) :: r))
    /\ line_count s' n
    /\ (forall mf mt, (mf, mt) <> (1, 451) -> mat_section m' mf mt = mat_section m mf mt)
    /\ (forall mf, mat_hasMF m' mf = mat_hasMF m mf)
    /\ (s' = s0 -> m' = m).
  Proof.
    destruct (parse_inv _ _ Hp) as (Hi & Hmt & Hz & Ha). destruct first_is as [B Eb].
    assert (En := new_index_nums copy (d_index (s_body old)) m). rewrite Eb in En. cbn [map] in En.
    destruct (new_index copy (d_index (s_body old)) m) as [|d0 r] eqn:Ei; [discriminate|]. cbn [map] in En. injection En as E1 E2 E3 En.
    assert (L : length (d0 :: r) = length (all_secs m)).
    { rewrite Eb. cbn [length]. f_equal. apply (f_equal (@length _)) in En. now rewrite !map_length in En. }
    set (n := 4 + len (d_text (s_body old)) + len (all_secs m)).
    set (idx := mkdir 1 451 n (dmod d0) :: r).
    assert (Nw : NWD (s_body old) = len (d_text (s_body old))).
    { destruct Hi as (_ & _ & _ & _ & _ & _ & I7 & _). unfold NWD. exact (len_i32 _ _ I7). }
    assert (Bw : len (d_text (s_body old)) < 2 ^ 31). { rewrite <- Nw. unfold NWD. assert (B0 := i32_range (Z.of_nat (length (d_text (s_body old))))). unfold int32 in B0. lia. }
    assert (Ri : Forall rep_dir idx).
    { assert (Fs := new_index_source copy (d_index (s_body old)) m). rewrite Ei in Fs.
      assert (Md : forall z, z = 0 \/ (exists e, In e (d_index (s_body old)) /\ z = dmod e) -> in_cols 11 z).
      { intros z [->|(e & He & ->)]; [unfold in_cols; cbn; lia|]. destruct Hr as (_ & _ & _ & _ & R5). rewrite Forall_forall in R5. apply R5, He. }
      constructor.
      - refine (conj _ (conj _ (conj _ _))); cbn [dmf dmt dnc dmod]; try (unfold in_cols; cbn; unfold n, len in *; lia).
        apply Md. exact (Forall_inv Fs).
      - apply Forall_forall. intros d Hd.
        assert (K : In (dmf d, dmt d, dnc d) (map (fun s => (ts_mf s, ts_mt s, sec_NC s)) B)).
        { rewrite <- En. apply (in_map (fun d => (dmf d, dmt d, dnc d))). exact Hd. }
        apply in_map_iff in K. destruct K as (s & K & Hin). injection K as K1 K2 K3.
        assert (Gs : good_section s). { rewrite Forall_forall in Hn. apply Hn. rewrite Eb. now right. }
        unfold good_section in Gs. assert (Bu := Z.mod_pos_bound (count_nl (ts_text s) - 1) 4294967296 ltac:(lia)). unfold sec_NC, u32 in K3.
        refine (conj _ (conj _ (conj _ _))); try (unfold in_cols; cbn; lia).
        apply Md. apply Forall_inv_tail in Fs. rewrite Forall_forall in Fs. exact (Fs d Hd). }
    destruct (updated_ok old idx Hg Hr Hi Ht) as (G' & N' & R' & I').
    { discriminate. } { change (len idx) with (Z.of_nat (length (d0 :: r))). rewrite L. exact Hl. } { exact Ri. }
    destruct (C30_section _ _ _ _ (section_rt_core _ _ _ (proj1 codec_451)) (updated old idx) (tm_mat m) Hm ltac:(cbn; lia) G' N' R' I') as (s' & T1 & T2 & T3 & T4 & T5 & T6 & T7).
    cbn [k_mf sec_451 updated s_mt] in T3, T4.
    assert (Nn : nc_section sec_451 (updated old idx) = n).
    { rewrite C36_nc by exact I'. cbn [updated s_body d_text d_index]. unfold n. change (len idx) with (Z.of_nat (length (d0 :: r))). rewrite L. reflexivity. }
    rewrite Nn in T6.
    assert (Lk := proj1 (look_section m 1 451 s0) Hs).
    assert (Lk' : look m (ts_mf s') (ts_mt s') = Some s0) by now rewrite T3, T4.
    destruct (put_split m s' s0 W Lk' T2) as (A & B' & m' & P1 & P2 & P3 & P4 & P5 & P6).
    assert (A = [] /\ B' = B).
    { destruct A as [|a A]; cbn [app] in P2.
      - split; [reflexivity|]. congruence.
      - exfalso. assert (S := all_secs_sorted m W). rewrite P2 in S. cbn [map] in S. inversion S as [|? ? _ F]; subst.
        assert (a = s0) by congruence. subst a. rewrite Forall_forall in F. specialize (F (numbers s0)). rewrite map_app in F.
        assert (K : before (numbers s0) (numbers s0)) by (apply F, in_or_app; right; now left). unfold before in K. lia. }
    destruct H as [-> ->]. cbn [app] in P3.
    assert (V := proj2 (shows_iff m (view_of m)) (conj eq_refl (conj (fun _ => eq_refl) (fun _ _ => eq_refl)))).
    assert (Sp := mop_sim (PutSection s') m (view_of m) W V). cbn [mop_run mop_spec] in Sp. rewrite P1 in Sp. cbn [v_mat view_of] in Sp.
    replace (ts_mat s' =? tm_mat m) with true in Sp by lia. cbn [negb fst snd] in Sp.
    destruct Sp as [Sp _]. apply shows_iff in Sp. destruct Sp as (_ & Sp1 & Sp2). cbn [put_section v_has v_sec view_of] in Sp1, Sp2.
    exists B, d0, r, m', s', n. split; [exact Eb|]. split; [reflexivity|]. split; [reflexivity|]. split.
    { unfold update_directory, directory_section.
      assert (F1 : exists f, mfind 1 (tm_files m) = Some f /\ mfind 451 (tf_secs f) = Some s0).
      { unfold look in Lk. destruct (mfind 1 (tm_files m)) as [f|]; [|discriminate]. eauto. }
      destruct F1 as (f & F1 & F2). unfold mat_hasMF, mhas, mat_file, at_. rewrite F1. cbn [negb obind].
      unfold file_has, mhas, file_section, at_. rewrite F2. cbn [negb obind]. rewrite Hp. cbn [obind]. rewrite Nw, Ei. unfold own_entry. cbn [obind].
      replace (Z.of_nat (length (d0 :: r))) with (len (all_secs m)) by (unfold len; now rewrite L). fold n. fold idx.
      rewrite rebuild_updated; auto.
      - cbn [obind]. rewrite T1. f_equal. exact P1.
      - destruct Hr as (_ & _ & _ & R4 & _). eapply Forall_impl; [|exact R4]. cbv beta. tauto. }
    split; [exact P5|]. split; [exact P4|]. split.
    { apply look_section. rewrite Sp2. unfold set2. rewrite T3, T4. reflexivity. }
    split; [exact T3|]. split; [exact T4|]. split; [exact P3|]. split; [exact T1|]. split; [exact T7|]. split; [exact T6|]. split; [|split].
    - intros mf mt Hne.
      assert (E : look m' mf mt = look m mf mt).
      { rewrite Sp2. unfold set2. rewrite T3, T4. destruct (Z.eqb_spec mf 1), (Z.eqb_spec mt 451); cbn [andb]; try reflexivity. subst. congruence. }
      assert (Q : forall x y, look x mf mt = look y mf mt -> mat_section x mf mt = mat_section y mf mt).
      { clear. intros x y. unfold look, mat_section, mat_file, file_section, at_.
        destruct (mfind mf (tm_files x)) as [f|], (mfind mf (tm_files y)) as [g|]; cbn [obind]; intros E; try reflexivity.
        - now rewrite E. - now rewrite E. - now rewrite <- E. }
      apply Q, E.
    - intros mf. rewrite Sp1. unfold set1. rewrite T3. destruct (Z.eqb_spec mf 1) as [->|]; [|reflexivity].
      unfold mat_hasMF, mhas. unfold look in Lk. now destruct (mfind 1 (tm_files m)).
    - intros ->. apply P6. reflexivity.
  Qed.
End Update.

(** ** C26, C27 *)
Lemma has_secs m mf mt : wfm m -> (mat_hasMFMT m mf mt = true <-> exists s, In s (all_secs m) /\ numbers s = (mf, mt)).
Proof.
  intros W. assert (E : mat_hasMFMT m mf mt = match look m mf mt with Some _ => true | None => false end).
  { unfold mat_hasMFMT, look, file_has, mhas. now destruct (mfind mf (tm_files m)). }
  rewrite E. split.
  - destruct (look m mf mt) as [s|] eqn:L; [|discriminate]. intros _. exists s. destruct (look_nums _ _ _ _ W L) as [A B].
    split; [|unfold numbers; now rewrite A, B]. unfold look in L. destruct (mfind mf (tm_files m)) as [f|] eqn:F; [|discriminate].
    unfold all_secs. apply in_flat_map. exists (mf, f). split; [now apply mfind_In|]. cbn [snd]. apply in_map_iff. exists (mt, s). split; [reflexivity|now apply mfind_In].
  - intros (s & H & N). unfold numbers in N. injection N as <- <-. now rewrite all_secs_look.
Qed.
Lemma NoDup_sorted l : StronglySorted before l -> NoDup l.
Proof.
  induction 1 as [|a l _ IH F]; [constructor|]. constructor; [|exact IH]. intros K. rewrite Forall_forall in F. apply F in K. unfold before in K. lia.
Qed.
Lemma nodup_inj {A B} (f : A -> B) l a b : NoDup (map f l) -> In a l -> In b l -> f a = f b -> a = b.
Proof.
  induction l as [|x l IH]; intros N Ha Hb E; [destruct Ha|]. cbn [map] in N. inversion N as [|? ? N1 N2]; subst.
  destruct Ha as [<-|Ha], Hb as [<-|Hb]; auto.
  - elim N1. rewrite E. now apply in_map. - elim N1. rewrite <- E. now apply in_map.
Qed.
Lemma line_count_NC s n : line_count s n -> 0 <= n < 2 ^ 32 -> sec_NC s = n.
Proof.
  intros (ls & E & N & L) B. unfold sec_NC. rewrite E. change (flat_map (fun l => l ++ [LF]) ls) with (lines_text ls).
  rewrite count_lines by exact N. etransitivity; [exact (f_equal (fun z => u32 (z - 1)) L)|]. cbv beta.
  replace (n + 1 - 1) with n by lia. unfold u32. apply Z.mod_small. lia.
Qed.
Lemma line_count_fun s n k : line_count s n -> line_count s k -> n = k.
Proof.
  intros (l1 & E1 & N1 & L1) (l2 & E2 & N2 & L2).
  assert (C1 := count_lines l1 N1). assert (C2 := count_lines l2 N2). unfold lines_text in C1, C2. rewrite <- E1 in C1. rewrite <- E2 in C2.
  assert (n + 1 = k + 1) by (etransitivity; [symmetry; exact L1|]; etransitivity; [symmetry; exact C1|]; etransitivity; [exact C2|exact L2]). lia.
Qed.
Lemma sorted_ordered idx : StronglySorted before (map entry_numbers idx) -> ordered_index idx.
Proof.
  induction idx as [|d r IH]; cbn [map]; intros S; [exact Logic.I|]. inversion S as [|? ? S1 F]; subst. split; [|now apply IH].
  apply Forall_forall. intros e He Em. rewrite Forall_forall in F. specialize (F (entry_numbers e) (in_map _ _ _ He)).
  unfold before, entry_numbers in F. cbn [fst snd] in F. lia.
Qed.
Lemma ready_secs m s0 old : ready m s0 old -> wfm m /\ Forall good_section (all_secs m).
Proof.
  intros R. assert (W := made_mat_wf _ (rd_made _ _ _ R)). split; [exact W|]. apply Forall_forall. intros s Hs.
  apply (rd_num _ _ _ R). apply has_secs; [exact W|]. now exists s.
Qed.
Lemma index_numbers copy old m d0 r n : new_index copy old m = d0 :: r -> forall s B, all_secs m = s :: B -> numbers s = (1, 451) ->
  map entry_numbers (mkdir 1 451 n (dmod d0) :: r) = map numbers (all_secs m)
  /\ map (fun d => (dmf d, dmt d, dnc d)) r = map (fun s => (ts_mf s, ts_mt s, sec_NC s)) B.
Proof.
  intros E s B Eb Ns. assert (K := new_index_nums copy old m). rewrite E, Eb in K. cbn [map] in K. injection K as K1 K2 K3 K.
  split; [|exact K]. rewrite Eb. cbn [map]. unfold entry_numbers at 1. cbn [dmf dmt]. rewrite Ns. f_equal.
  apply (f_equal (map fst)) in K. rewrite !map_map in K. exact K.
Qed.

Theorem C26_directory : forall copy m s0 old, ready m s0 old ->
  exists m' s' x, update_directory copy m = Val (m', None)
    /\ mat_section m' 1 451 = Val s' /\ sec_parse sec_451 s' = Val x
    /\ describes (d_index (s_body x)) m'
    /\ (* the number of lines of the directory itself *)
       line_count s' (nc_section sec_451 x)
    /\ exists d, In d (d_index (s_body x)) /\ dmf d = 1 /\ dmt d = 451 /\ dnc d = nc_section sec_451 x.
Proof.
  intros copy m s0 old R. destruct (ready_secs _ _ _ R) as [W Gs]. destruct R as [R1 R2 R3 R4 R5 R6 R7 R8 R9 R10].
  destruct (update_result copy m s0 old W R2 R3 R4 R5 R6 R7 R8 Gs R10)
    as (B & d0 & r & m' & s' & n & U1 & U2 & U3 & U4 & U5 & U6 & U7 & U8 & U9 & U10 & U11 & U12 & U13 & U14 & U15 & U16).
  set (idx := mkdir 1 451 n (dmod d0) :: r) in *.
  assert (N0 : numbers s0 = (1, 451)). { apply look_section in R3. destruct (look_nums _ _ _ _ W R3) as [A1 A2]. unfold numbers. congruence. }
  assert (N' : numbers s' = (1, 451)) by (unfold numbers; congruence).
  destruct (index_numbers _ _ _ _ _ n U2 _ _ U1 N0) as [X1 X2]. fold idx in X1.
  assert (X3 : map numbers (all_secs m) = map numbers (all_secs m')) by (rewrite U1, U10; cbn [map]; congruence).
  rewrite X3 in X1.
  assert (Nn : nc_section sec_451 (updated old idx) = n).
  { destruct (parse_inv _ _ U12) as (I' & _). rewrite C36_nc by exact I'. cbn [updated s_body d_text d_index]. rewrite U3. f_equal.
    unfold idx, len. apply (f_equal (@length _)) in X1. rewrite !map_length in X1. unfold idx in X1. rewrite X1.
    apply (f_equal (@length _)) in X3. rewrite !map_length in X3. lia. }
  exists m', s', (updated old idx). split; [exact U4|]. split; [exact U7|]. split; [exact U12|]. cbn [updated s_body d_index]. split; [split; [|split]|split].
  - rewrite X1. now apply all_secs_sorted.
  - intros mf mt. rewrite X1. rewrite (has_secs m' mf mt U5). split.
    + intros (s & Hs & E). rewrite <- E. now apply in_map.
    + intros H. apply in_map_iff in H. destruct H as (s & E & Hs). eauto.
  - intros d s k [<-|Hd] Hs Hl Hk; cbn [dmf dmt dnc] in *.
    + assert (s = s') by congruence. subst s. exact (line_count_fun _ _ _ U13 Hl).
    + assert (K : In (dmf d, dmt d, dnc d) (map (fun s => (ts_mf s, ts_mt s, sec_NC s)) B)).
      { rewrite <- X2. apply (in_map (fun d => (dmf d, dmt d, dnc d))). exact Hd. }
      apply in_map_iff in K. destruct K as (t & K & Ht). injection K as K1 K2 K3.
      assert (Lt : look m' (ts_mf t) (ts_mt t) = Some t). { apply all_secs_look; [exact U5|]. rewrite U10. now right. }
      apply look_section in Hs. rewrite <- K1, <- K2, Lt in Hs. injection Hs as <-. rewrite <- K3. now apply line_count_NC.
  - rewrite Nn. exact U13.
  - exists (mkdir 1 451 n (dmod d0)). split; [now left|]. cbn. rewrite Nn. auto.
Qed.

Theorem C27_modification_numbers : forall copy m s0 old, ready m s0 old ->
  exists m' s' x, update_directory copy m = Val (m', None)
    /\ mat_section m' 1 451 = Val s' /\ sec_parse sec_451 s' = Val x
    /\ (copy = false -> Forall (fun d => dmod d = 0) (d_index (s_body x)))
    /\ (copy = true -> ordered_index (d_index (s_body old)) ->
        Forall (fun d => mod_of (d_index (s_body old)) (dmf d) (dmt d) (dmod d)) (d_index (s_body x))).
Proof.
  intros copy m s0 old R. destruct (ready_secs _ _ _ R) as [W Gs]. destruct R as [R1 R2 R3 R4 R5 R6 R7 R8 R9 R10].
  destruct (update_result copy m s0 old W R2 R3 R4 R5 R6 R7 R8 Gs R10)
    as (B & d0 & r & m' & s' & n & U1 & U2 & U3 & U4 & U5 & U6 & U7 & U8 & U9 & U10 & U11 & U12 & U13 & U14 & U15 & U16).
  exists m', s', (updated old (mkdir 1 451 n (dmod d0) :: r)). split; [exact U4|]. split; [exact U7|]. split; [exact U12|].
  cbn [updated s_body d_index]. split.
  - intros ->. assert (Z0 := new_index_zero (d_index (s_body old)) m). rewrite U2 in Z0. inversion Z0; subst. constructor; assumption.
  - intros -> O. assert (M := new_index_mods _ m W O). rewrite U2 in M. inversion M as [|? ? M1 M2]; subst. constructor; [|exact M2].
    cbn [dmf dmt dmod]. unfold mods_ok in M1.
    assert (N0 : numbers s0 = (1, 451)). { apply look_section in R3. destruct (look_nums _ _ _ _ W R3) as [A1 A2]. unfold numbers. congruence. }
    assert (K := new_index_nums true (d_index (s_body old)) m). rewrite U2, U1 in K. cbn [map] in K. injection K as K1 K2 _ _.
    unfold numbers in N0. injection N0 as N1 N2. congruence.
Qed.

(** everything else is untouched; when the update fails, everything *)
Theorem C27_others_untouched : forall copy m s0 old, ready m s0 old ->
  exists m', update_directory copy m = Val (m', None)
    /\ tm_mat m' = tm_mat m
    /\ (forall mf, mat_hasMF m' mf = mat_hasMF m mf)
    /\ (forall mf mt, (mf, mt) <> (1, 451) -> mat_section m' mf mt = mat_section m mf mt).
Proof.
  intros copy m s0 old R. destruct (ready_secs _ _ _ R) as [W Gs]. destruct R as [R1 R2 R3 R4 R5 R6 R7 R8 R9 R10].
  destruct (update_result copy m s0 old W R2 R3 R4 R5 R6 R7 R8 Gs R10)
    as (B & d0 & r & m' & s' & n & U1 & U2 & U3 & U4 & U5 & U6 & U7 & U8 & U9 & U10 & U11 & U12 & U13 & U14 & U15 & U16).
  exists m'. auto.
Qed.
Theorem C27_failure : forall copy m m' e, update_directory copy m = Val (m', Some e) -> m' = m.
Proof.
  intros copy m m' e H. unfold update_directory in H.
  destruct (directory_section copy m) as [s|e'|] eqn:D; [|injection H as <- _; reflexivity|discriminate].
  assert (Hf : mat_hasMF m 1 = true /\ ts_mf s = 1).
  { unfold directory_section in D. destruct (mat_hasMF m 1) eqn:F; [|discriminate]. cbn [negb] in D. split; [reflexivity|].
    destruct (mat_file m 1) as [f| |]; cbn [obind] in D; try discriminate. destruct (file_has f 451); [|discriminate]. cbn [negb] in D.
    destruct (file_section f 451) as [t| |]; cbn [obind] in D; try discriminate.
    destruct (sec_parse sec_451 t) as [old| |]; cbn [obind] in D; try discriminate.
    destruct (own_entry _ _) as [idx| |]; cbn [obind] in D; try discriminate.
    destruct (rebuild old idx) as [x| |]; cbn [obind] in D; try discriminate.
    unfold to_section in D. destruct (pr_section sec_451 x (tm_mat m) (k_mf sec_451)); cbn [obind] in D; try discriminate.
    injection D as <-. reflexivity. }
  destruct Hf as [Hf Hs]. injection H as H. unfold mat_put_sec, ensure_file in H. rewrite Hs, Hf in H.
  assert (K := in_file_failed 1 (file_put s) m). rewrite H in K. cbn [fst snd] in K. apply K; [|discriminate].
  intros f. unfold file_put. destruct (_ || _); cbn; [reflexivity|congruence].
Qed.
Theorem C26_absent : forall copy m, mat_hasMFMT m 1 451 = false -> update_directory copy m = Val (m, Some EStd).
Proof.
  intros copy m H. unfold update_directory, directory_section, mat_hasMF, mhas, mat_file, at_. unfold mat_hasMFMT in H.
  destruct (mfind 1 (tm_files m)) as [f|]; cbn [negb]; [|reflexivity]. cbn [obind]. now rewrite H.
Qed.

Lemma updated_twice old idx : updated (updated old idx) idx = updated old idx.
Proof. unfold updated. cbn [s_za s_awr s_body d_lrp d_lfi d_nlib d_nmod d_c0 d_c1 d_c2 d_text c1 c2 l1 l2 n1 n2]. now rewrite !i32_i32. Qed.
Theorem C27_idempotent : forall copy m s0 old, ready m s0 old ->
  exists m', update_directory copy m = Val (m', None) /\ update_directory copy m' = Val (m', None).
Proof.
  intros copy m s0 old R. destruct (ready_secs _ _ _ R) as [W Gs]. destruct R as [R1 R2 R3 R4 R5 R6 R7 R8 R9 R10].
  destruct (update_result copy m s0 old W R2 R3 R4 R5 R6 R7 R8 Gs R10)
    as (B & d0 & r & m' & s' & n & U1 & U2 & U3 & U4 & U5 & U6 & U7 & U8 & U9 & U10 & U11 & U12 & U13 & U14 & U15 & U16).
  set (idx := mkdir 1 451 n (dmod d0) :: r) in *.
  exists m'. split; [exact U4|].
  destruct (parse_inv _ _ R4) as (Io & _). destruct (parse_inv _ _ U12) as (Iu & _).
  assert (N0 : numbers s0 = (1, 451)). { apply look_section in R3. destruct (look_nums _ _ _ _ W R3) as [A1 A2]. unfold numbers. congruence. }
  assert (N' : numbers s' = (1, 451)) by (unfold numbers; congruence).
  destruct (index_numbers _ _ _ _ _ n U2 _ _ U1 N0) as [X1 X2]. fold idx in X1.
  assert (X3 : map numbers (all_secs m) = map numbers (all_secs m')) by (rewrite U1, U10; cbn [map]; congruence).
  rewrite X3 in X1.
  assert (L3 : len (all_secs m') = len (all_secs m)) by (unfold len; rewrite U1, U10; reflexivity).
  assert (Gs' : Forall good_section (all_secs m')).
  { rewrite U10. rewrite U1 in Gs. inversion Gs; subst. constructor; [|assumption]. unfold good_section. rewrite U8, U9. lia. }
  assert (F' : first_451 m').
  { intros mf mt H. apply R8. apply has_secs in H; [|exact U5]. apply has_secs; [exact W|]. destruct H as (s & Hs & E).
    assert (K : In (mf, mt) (map numbers (all_secs m'))) by (rewrite <- E; now apply in_map). rewrite <- X3 in K. apply in_map_iff in K.
    destruct K as (t & Et & Ht). eauto. }
  assert (Ru : rep_descr (s_body (updated old idx)) /\ Forall rep_dir idx).
  { destruct R6 as (Q1 & Q2 & Q3 & Q4 & Q5).
    assert (Bn : 0 <= n < 2 ^ 33). { subst n. destruct Io as (_ & _ & _ & _ & _ & _ & [I7 _] & _). unfold int32, len in *. lia. }
    assert (Fs := new_index_source copy (d_index (s_body old)) m). rewrite U2 in Fs.
    assert (Md : forall z, z = 0 \/ (exists e, In e (d_index (s_body old)) /\ z = dmod e) -> in_cols 11 z).
    { intros z [->|(e & He & ->)]; [unfold in_cols; cbn; lia|]. rewrite Forall_forall in Q5. apply Q5, He. }
    assert (Ri : Forall rep_dir idx).
    { constructor.
      - refine (conj _ (conj _ (conj _ _))); cbn [dmf dmt dnc dmod]; try (unfold in_cols; cbn; lia). apply Md. exact (Forall_inv Fs).
      - apply Forall_forall. intros d Hd.
        assert (K : In (dmf d, dmt d, dnc d) (map (fun s => (ts_mf s, ts_mt s, sec_NC s)) B)).
        { rewrite <- X2. apply (in_map (fun d => (dmf d, dmt d, dnc d))). exact Hd. }
        apply in_map_iff in K. destruct K as (s & K & Hin). injection K as K1 K2 K3.
        assert (Gx : good_section s). { rewrite Forall_forall in Gs. apply Gs. rewrite U1. now right. }
        unfold good_section in Gx. assert (Bu := Z.mod_pos_bound (count_nl (ts_text s) - 1) 4294967296 ltac:(lia)). unfold sec_NC, u32 in K3.
        refine (conj _ (conj _ (conj _ _))); try (unfold in_cols; cbn; lia).
        apply Md. apply Forall_inv_tail in Fs. rewrite Forall_forall in Fs. exact (Fs d Hd). }
    split; [|exact Ri].
    destruct (updated_ok old idx R5 (conj Q1 (conj Q2 (conj Q3 (conj Q4 Q5)))) Io R7) as (_ & _ & R' & _); [discriminate| |exact Ri|exact R'].
    unfold len. apply (f_equal (@length _)) in X1. rewrite !map_length in X1. rewrite X1. unfold len in *. lia. }
  destruct Ru as [Ru Ri].
  destruct (update_result copy m' s' (updated old idx) U5 ltac:(lia) U7 U12 R5 Ru R7 F' Gs' ltac:(lia))
    as (B2 & d2 & r2 & m2 & s2 & nn & V1 & V2 & V3 & V4 & _ & _ & _ & _ & _ & _ & V11 & _ & _ & _ & _ & V16).
  rewrite V4. f_equal. f_equal. apply V16.
  assert (En : nn = n). { rewrite V3, U3. cbn [updated s_body d_text]. lia. } rewrite En in V11.
  assert (B2 = B) by congruence. subst B2.
  enough (Ei : mkdir 1 451 n (dmod d2) :: r2 = idx).
  { rewrite Ei, updated_twice in V11. rewrite U6, U11 in V11. congruence. }
  cbn [updated s_body d_index] in V2.
  destruct (index_numbers _ _ _ _ _ n V2 _ _ V1 N') as [Y1 Y2].
  assert (Sx : StronglySorted before (map entry_numbers idx)) by (rewrite X1; now apply all_secs_sorted).
  (* modification numbers *)
  assert (Md : Forall2 (fun d e => dmod d = dmod e) (mkdir 1 451 n (dmod d2) :: r2) idx).
  { destruct copy.
    - assert (Mo := new_index_mods idx m' U5 (sorted_ordered _ Sx)). rewrite V2 in Mo.
      assert (Mo' : Forall (mods_ok idx) (mkdir 1 451 n (dmod d2) :: r2)).
      { inversion Mo as [|? ? M1 M2]; subst. constructor; [|exact M2]. unfold mods_ok in *. cbn [dmf dmt dmod].
        assert (K := new_index_nums true idx m'). rewrite V2, V1 in K. cbn [map] in K. injection K as K1 K2 _ _. congruence. }
      clear Mo V2. rewrite <- X1 in Y1.
      revert Y1 Mo'. generalize (mkdir 1 451 n (dmod d2) :: r2). intros l Y1 Mo'.
      assert (G : forall l1 l2, map entry_numbers l1 = map entry_numbers l2 -> Forall (mods_ok idx) l1 -> incl l2 idx -> Forall2 (fun d e => dmod d = dmod e) l1 l2).
      { induction l1 as [|a l1 IH]; intros [|b l2] E F In2; try discriminate; [constructor|]. cbn [map] in E. injection E as E1 E2 E3.
        inversion F as [|? ? F1 F2]; subst. constructor; [|apply IH; auto; intros z Hz; apply In2; now right].
        assert (Hb : In b idx) by (apply In2; now left). destruct F1 as [(e & He & G1 & G2 & G3)|[F1 _]].
        - rewrite <- G3. f_equal. apply (nodup_inj entry_numbers idx); auto; [now apply NoDup_sorted|]. unfold entry_numbers. congruence.
        - elim (F1 b Hb). split; congruence. }
      apply (G l idx Y1 Mo'). apply incl_refl.
    - assert (Z1 := new_index_zero (d_index (s_body old)) m). rewrite U2 in Z1. assert (Z2 := new_index_zero idx m'). rewrite V2 in Z2.
      inversion Z1 as [|? ? A1 A2]; subst. inversion Z2 as [|? ? A3 A4]; subst. constructor; [cbn; congruence|].
      assert (Lr : length r2 = length r). { rewrite <- X2 in Y2. apply (f_equal (@length _)) in Y2. now rewrite !map_length in Y2. }
      clear -A2 A4 Lr. revert r Lr A2. induction A4 as [|d l Hd _ IH]; intros [|e l'] L A; try discriminate; [constructor|].
      inversion A; subst. constructor; [congruence|]. apply IH; [now injection L|assumption]. }
  inversion Md as [|? ? ? ? M1 M2]; subst. cbn [dmod] in M1. unfold idx. f_equal; [congruence|].
  rewrite <- X2 in Y2. clear -Y2 M2. revert r Y2 M2. induction r2 as [|[a1 a2 a3 a4] l IH]; intros [|[b1 b2 b3 b4] l'] Y M; try discriminate; [reflexivity|].
  cbn [map dmf dmt dnc] in Y. injection Y as -> -> -> Y. inversion M; subst. cbn [dmod] in *. subst. f_equal. now apply IH.
Qed.

(** updateDirectory of a tape updates its materials one after the other and stops
    at the first that cannot be updated; those after it are not touched *)
Theorem C26_tape : forall copy T,
  (forall T', update_tape copy T = Val (T', None) <->
     tt_tpid T' = tt_tpid T
     /\ Forall2 (fun p q => fst q = fst p /\ update_directory copy (snd p) = Val (snd q, None)) (tt_mats T) (tt_mats T'))
  /\ (forall T' e, update_tape copy T = Val (T', Some e) ->
     tt_tpid T' = tt_tpid T
     /\ exists a a' k m b, tt_mats T = a ++ (k, m) :: b /\ tt_mats T' = a' ++ (k, m) :: b
          /\ Forall2 (fun p q => fst q = fst p /\ update_directory copy (snd p) = Val (snd q, None)) a a'
          /\ update_directory copy m = Val (m, Some e)).
Proof.
  intros copy T. split.
  - intros T'. unfold update_tape.
    assert (H : forall l l', update_all copy l = Val (l', None) <->
      Forall2 (fun p q : Z * tmat => fst q = fst p /\ update_directory copy (snd p) = Val (snd q, None)) l l').
    { induction l as [|[k m] l IH]; intros l'; cbn [update_all].
      - split; [intros E; injection E as <-; constructor|]. intros F. inversion F. reflexivity.
      - split.
        + destruct (update_directory copy m) as [[m' [e|]]| |] eqn:U; cbn [obind]; try discriminate.
          destruct (update_all copy l) as [[l2 y]| |]; cbn [obind]; try discriminate. intros E. injection E as <- ->.
          constructor; [cbn [fst snd]; auto|]. now apply IH.
        + intros F. inversion F as [|? [k' m'] ? l2 [A B] F2]; subst. cbn [fst snd] in *. subst k'. rewrite B. cbn [obind].
          apply IH in F2. rewrite F2. reflexivity. }
    destruct (update_all copy (tt_mats T)) as [[l x]| |] eqn:E; cbn [obind]; split.
    + intros K. injection K as <- ->. cbn. split; [reflexivity|]. now apply H.
    + intros [A B]. apply H in B. rewrite E in B. injection B as -> ->. rewrite <- A. now destruct T'.
    + discriminate. + intros [A B]. apply H in B. rewrite E in B. discriminate.
    + discriminate. + intros [A B]. apply H in B. rewrite E in B. discriminate.
  - intros T' e. unfold update_tape. destruct (update_all copy (tt_mats T)) as [[l x]| |] eqn:E; cbn [obind]; intros K; try discriminate.
    injection K as <- ->. cbn. split; [reflexivity|]. revert l E. induction (tt_mats T) as [|[k m] r IH]; intros l E; [discriminate|].
    cbn [update_all] in E. destruct (update_directory copy m) as [[m' [e'|]]| |] eqn:U; cbn [obind] in E; try discriminate.
    + injection E as <- ->. assert (m' = m) by (eapply C27_failure; exact U). subst m'. exists [], [], k, m, r. auto.
    + destruct (update_all copy r) as [[l2 y]| |] eqn:E2; cbn [obind] in E; try discriminate. injection E as <- ->.
      destruct (IH l2 eq_refl) as (a & a' & k2 & m2 & b & -> & -> & F & G).
      exists ((k, m) :: a), ((k, m') :: a'), k2, m2, b. split; [reflexivity|]. split; [reflexivity|]. split; [|exact G]. constructor; auto.
Qed.

(** ** examples *)
Definition x_line3 := txt " 1.001000+3 9.991673-1          0          0          0          0 125 3  1     "%string.
Definition x_send3 := txt "                                                                   125 3  0     "%string.
Definition x_sec (mf mt : Z) : tsec := mktsec 125 mf mt (lines_text [x_line3; x_line3; x_send3]).
Definition x_s451 (x : sect descr) : tsec := match to_section sec_451 x 125 with Val s => s | _ => x_sec 1 451 end.
(** a material with the given directory and sections *)
Definition x_mat (x : sect descr) (l : list tsec) : tmat :=
  fold_left (fun m s => fst (mat_put_sec s m)) l (fst (mat_put_sec (x_s451 x) (mktmat 125 []))).
Lemma x_mat_made x l : made_mat (x_mat x l).
Proof.
  unfold x_mat. assert (H : made_mat (fst (mat_put_sec (x_s451 x) (mktmat 125 [])))) by exact (mm_op (PutSection (x_s451 x)) _ Logic.I (mm_new 125)).
  revert H. generalize (fst (mat_put_sec (x_s451 x) (mktmat 125 []))). induction l as [|s l IH]; intros m H; [exact H|].
  cbn [fold_left]. apply IH. exact (mm_op (PutSection s) m Logic.I H).
Qed.
Definition x_m : tmat := x_mat x_451 [x_sec 3 2; x_sec 3 1].
Example C26_example : ready x_m (x_s451 x_451) x_451.
Proof.
  destruct C36_example as (G & N & R & I).
  destruct (C30_section _ _ _ _ (section_rt_core _ _ _ (proj1 codec_451)) x_451 125 ltac:(lia) ltac:(cbn; lia) G N R I) as (s & T1 & _ & _ & _ & _ & _ & T7).
  assert (E : x_s451 x_451 = s) by (unfold x_s451; now rewrite T1).
  assert (Ea : all_secs x_m = [x_s451 x_451; x_sec 3 1; x_sec 3 2]) by (vm_compute; reflexivity).
  assert (W := made_mat_wf _ (x_mat_made x_451 [x_sec 3 2; x_sec 3 1])). fold x_m in W.
  assert (Hs : forall mf mt, mat_hasMFMT x_m mf mt = true -> (mf = 1 /\ mt = 451) \/ (mf = 3 /\ mt = 1) \/ (mf = 3 /\ mt = 2)).
  { intros mf mt H. apply has_secs in H; [|exact W]. destruct H as (t & Ht & Et). rewrite Ea in Ht.
    unfold numbers in Et. injection Et as <- <-. destruct Ht as [<-|[<-|[<-|[]]]]; vm_compute; auto. }
  split.
  - apply x_mat_made.
  - vm_compute. auto.
  - vm_compute. reflexivity.
  - now rewrite E.
  - exact G.
  - exact R.
  - discriminate.
  - intros mf mt H. apply Hs in H. lia.
  - intros mf mt H. apply Hs in H. lia.
  - rewrite Ea. reflexivity.
Qed.
(** what the update makes of it: the entry of 3/2, absent before, has MOD 0 *)
Definition index_after (copy : bool) (m : tmat) : option (list (Z * Z * Z * Z)) :=
  match update_directory copy m with
  | Val (m', None) =>
      match mat_section m' 1 451 with
      | Val s => match sec_parse sec_451 s with
                 | Val x => Some (map (fun d => (dmf d, dmt d, dnc d, dmod d)) (d_index (s_body x))) | _ => None end
      | _ => None end
  | _ => None
  end.
Example C26_example_result : index_after true x_m = Some [(1, 451, 9, 5); (3, 1, 2, 0); (3, 2, 2, 1)]
  /\ index_after false x_m = Some [(1, 451, 9, 0); (3, 1, 2, 0); (3, 2, 2, 0)].
Proof. split; vm_compute; reflexivity. Qed.

(** ** where the directory is wrong *)
Definition x_dir (ts : list text) (idx : list dir) : sect descr :=
  mksect 1001 r_one 451
    (mkdescr 1 0 4 0 (mkcont r_pi r_one 0 0 0 6) (mkcont r_one r_tiny 1 0 10 8) (mkcont r_pi r_one 0 0 (len ts) (len idx)) ts idx).
(** without descriptive text: the updated section has 7 lines, a blank text line
    among them, but the entry says 6 *)
Theorem C26_no_description_refuted : exists m m' s', made_mat m
  /\ update_directory false m = Val (m', None) /\ mat_section m' 1 451 = Val s'
  /\ line_count s' 7 /\ index_after false m = Some [(1, 451, 6, 0); (3, 1, 2, 0)].
Proof.
  set (m := x_mat (x_dir [] [mkdir 1 451 5 0]) [x_sec 3 1]).
  assert (E : exists m' s', update_directory false m = Val (m', None) /\ mat_section m' 1 451 = Val s'
     /\ exists ls, forallb no_lf ls = true /\ ts_text s' = lines_text ls /\ length ls = 8%nat).
  { eexists. eexists. split; [vm_compute; reflexivity|]. split; [vm_compute; reflexivity|].
    set (f := fix lines (n : nat) (t : text) := match n with O => [] | Datatypes.S n' => let (l, b) := next_line t in l :: lines n' b end).
    match goal with |- exists ls, _ /\ ts_text ?s = _ /\ _ => exists (f 8%nat (ts_text s)) end.
    split; [vm_compute; reflexivity|]. split; vm_compute; reflexivity. }
  destruct E as (m' & s' & E1 & E2 & ls & N & T & L). exists m, m', s'. split; [apply x_mat_made|]. split; [exact E1|]. split; [exact E2|]. split.
  - exists ls. split; [exact T|]. split; [|exact (f_equal Z.of_nat L)]. eapply forallb_Forall; [|exact N]. exact no_lf_ok.
  - vm_compute. reflexivity.
Qed.
(** 1/451 is not the first section: the entry of the first section is lost and
    1/451 has two entries *)
Theorem C26_not_first_refuted : exists m, made_mat m /\ mat_hasMFMT m 1 450 = true
  /\ index_after false m = Some [(1, 451, 7, 0); (1, 451, 6, 0)].
Proof.
  exists (x_mat (x_dir [x_text1] [mkdir 1 451 6 0]) [x_sec 1 450]). split; [apply x_mat_made|]. split; vm_compute; reflexivity.
Qed.
(** an index that is not ordered: the modification number 4 of 3/1 is lost *)
Theorem C27_unordered_refuted : exists m old, made_mat m
  /\ d_index (s_body old) = [mkdir 1 451 8 0; mkdir 3 2 4 6; mkdir 3 1 4 4] /\ m = x_mat old [x_sec 3 1; x_sec 3 2]
  /\ index_after true m = Some [(1, 451, 8, 0); (3, 1, 2, 4); (3, 2, 2, 0)].
Proof.
  exists (x_mat (x_dir [x_text1] [mkdir 1 451 8 0; mkdir 3 2 4 6; mkdir 3 1 4 4]) [x_sec 3 1; x_sec 3 2]).
  eexists. split; [apply x_mat_made|]. split; [|split; [reflexivity|vm_compute; reflexivity]]. reflexivity.
Qed.

(** ** updateDirectory is undefined exactly if the ZA of the HEAD record of 1/451 does not fit in an int *)
Lemma update_undefined : forall copy m, update_directory copy m = Undef <->
  exists s, mat_section m 1 451 = Val s /\ rd_parse sec_451 (mkst (ts_text s) 1) = UB.
Proof.
  intros copy m. unfold update_directory, directory_section, mat_section, mat_hasMF, mhas, mat_file, at_.
  destruct (mfind 1 (tm_files m)) as [f|] eqn:F; cbn [negb obind]; [|split; [discriminate|intros (s & K & _); discriminate K]].
  unfold file_has, mhas, file_section, at_.
  destruct (mfind 451 (tf_secs f)) as [s|] eqn:G; cbn [negb obind]; [|split; [discriminate|intros (s & K & _); discriminate K]].
  unfold sec_parse. destruct (rd_parse sec_451 (mkst (ts_text s) 1)) as [x st|e st|] eqn:R; cbn [obind].
  - split; [|intros (s' & [= <-] & K); rewrite R in K; discriminate K].
    intros H. exfalso. destruct (own_entry _ _) as [idx|e|] eqn:O; cbn [obind] in H; [|discriminate H|].
    + unfold rebuild, make_section in H. destruct ((_ <? 1) || _ || _); cbn [obind] in H; [discriminate H|].
      unfold to_section, pr_section, pr_SEND, SEND in H. destruct (tm_mat m <? 1); [discriminate H|]. destruct (k_mf sec_451 <? 1); discriminate H.
    + unfold own_entry in O. destruct (new_index copy (d_index (s_body x)) m) as [|d r] eqn:N; [|discriminate O].
      unfold new_index in N. apply mfind_In in F, G.
      assert (K : dir_entries copy (d_index (s_body x)) (tf_secs f) = []).
      { revert N F. induction (tm_files m) as [|p l IH]; [intros _ []|]. cbn [flat_map]. intros E. apply app_eq_nil in E. destruct E as [E1 E2]. intros [->|I]; [exact E1|now apply IH]. }
      destruct (tf_secs f) as [|[n q] ss]; [destruct G|]. cbn [dir_entries] in K. destruct (if copy then _ else _) as [md b']. discriminate K.
  - split; [discriminate|intros (s' & [= <-] & K); rewrite R in K; discriminate K].
  - split; [intros _; exists s; now split|reflexivity].
Qed.
Lemma descr_undefined t ln : rd_parse sec_451 (mkst t ln) = UB <->
  exists d s', rd_sdiv (mkst t ln) = Ok d s' /\ ~ int32 (round_int (c1 (sbase d))).
Proof.
  unfold rd_parse, bind. assert (Sx := only_std_sdiv (mkst t ln)). destruct (rd_sdiv (mkst t ln)) as [d s'|e s'|]; [| |destruct Sx].
  - split.
    + intros H. exists d, s'. split; [reflexivity|]. intros K. assert (N := proj2 codec_451 d (smat d) s' K). rewrite H in N. exact N.
    + intros (d' & s'' & [= <- <-] & K). unfold Sections.rd_section, sec_head, bind, lift, head_za32.
      destruct ((_ <=? _) && _) eqn:E; [|reflexivity]. destruct K. unfold int32. lia.
  - split; [discriminate|]. intros (d' & s'' & K & _). discriminate K.
Qed.
Theorem C27_undefined : forall copy m, update_directory copy m = Undef <->
  exists s d s', mat_section m 1 451 = Val s /\ rd_sdiv (mkst (ts_text s) 1) = Ok d s' /\ ~ int32 (round_int (c1 (sbase d))).
Proof.
  intros copy m. rewrite update_undefined. split.
  - intros (s & E & K). apply descr_undefined in K. destruct K as (d & s' & K). eauto.
  - intros (s & d & s' & E & K). exists s. split; [exact E|]. apply descr_undefined. eauto.
Qed.
(** ZA is 1e12 *)
Definition huge_za : text := lines_text [txt " 1.00000+12 1.00000+00          0          0          0          09228 1451     "; txt "                                                                  9228 1  0     "; txt "                                                                  9228 0  0     "; txt "                                                                     0 0  0     "].
Example C27_undefined_example : exists m s, index_mat huge_za = Ok m s /\ mat_hasMFMT m 1 451 = true /\ update_directory true m = Undef.
Proof. do 2 eexists. split; [vm_compute; reflexivity|]. split; vm_compute; reflexivity. Qed.
