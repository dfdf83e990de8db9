
(** ** the theorems for the classes of the library *)
From Verif Require Import PropRecords ExKit.
Definition lib_table := proj1 C31_classes.
Definition lib_safe := proj1 (proj2 C31_classes).
Notation ysection := (ysec sclass sbody).
Notation yfile := (Typed.yfile sclass sbody). Notation ymat := (Typed.ymat sclass sbody). Notation ytape := (Typed.ytape sclass sbody).
Definition good_file := good_yfile sclass sbody skind_of lib_rep lib_inv.
Definition good_material := good_ymat sclass sbody skind_of lib_rep lib_inv.
Definition good_tape := good_ytape sclass sbody skind_of lib_rep lib_inv.
Theorem C31_library : forall f mat, 0 < mat < 10000 -> good_file f ->
  exists t n, pr_yfile skind_of f mat = Val t
    /\ forall rest ln, parse_yfile skind_of lib_class (yf_mf f) (mkst (t ++ rest) ln) = Ok f (mkst rest (ln + n)).
Proof. intros f mat H G. destruct (C31_round_trip _ _ _ _ _ _ lib_table f mat H G) as (t & P & R). eauto. Qed.
Theorem C32_library_material : forall m, good_material m ->
  exists t n, pr_ymat skind_of m = Val t
    /\ forall rest ln, parse_ymat skind_of lib_class (mkst (t ++ rest) ln) = Ok m (mkst rest (ln + n)).
Proof. intros m G. destruct (C32_material_round_trip _ _ _ _ _ _ lib_table m G) as (t & P & R). eauto. Qed.
Theorem C32_library_tape : forall t, good_tape t ->
  exists u n, pr_ytape skind_of t = Val u
    /\ forall rest ln, rd_ytape skind_of lib_class (mkst (u ++ rest) ln) = Ok t (mkst rest (ln + n)).
Proof. intros t G. destruct (C32_tape_exact _ _ _ _ _ _ lib_table t G) as (u & P & R). eauto. Qed.
Theorem C30_library : (forall f mat, 0 < mat < 10000 -> good_file f ->
    exists F, to_file skind_of f mat = Val F /\ tf_mat F = mat /\ tf_mf F = yf_mf f
      /\ pr_yfile skind_of f mat = file_content F /\ file_parse skind_of lib_class (yf_mf f) F = Val f)
  /\ forall m, good_material m ->
    exists X, to_mat skind_of m = Val X /\ tm_mat X = ym_mat m
      /\ pr_ymat skind_of m = mat_content X /\ mat_parse skind_of lib_class X = Val m.
Proof. split; [exact (C30_file _ _ _ _ _ _ lib_table)|exact (C30_material _ _ _ _ _ _ lib_table)]. Qed.
(** Reading any text as a file MF or as a material ends, in an object or in a
    std::exception, unless ZA of a HEAD overflows, a SEND of file 8 is taken for a
    HEAD, or a section whose reader has undefined behaviour is met: *)
Lemma lib_defined : forall mf d c mat s, lib_class mf (smt d) = Some c -> lib_guard mf d (buf s) ->
  int32 (round_int (c1 (sbase d))) -> never_other (Sections.rd_section (skind_of c) d mat s).
Proof.
  intros mf d c mat s E G Hz. apply lib_safe; [exact Hz|]. rewrite (tk_fun _ _ _ _ _ _ lib_table _ _ _ E). exact G.
Qed.
Lemma lib_whole : forall mf d c mat s x s', lib_class mf (smt d) = Some c -> lib_guard mf d (buf s) ->
  Sections.rd_section (skind_of c) d mat s = Ok x s' -> exists n, buf s' = drop_lines n (buf s).
Proof.
  intros mf d c mat s x s' E G R. rewrite <- (tk_fun _ _ _ _ _ _ lib_table _ _ _ E) in G.
  destruct (lib_lines c d mat s x s' R G) as (s1 & (n & E1 & _) & (m & E2 & _) & _). exists (n + m)%nat. rewrite <- drop_drop, <- E1. exact E2.
Qed.
Theorem C44_library : forall t ln, fine t ->
  (every_div (fun h _ => every_div (lib_guard (smf h)) t) t -> never_other (parse_ymat skind_of lib_class (mkst t ln)))
  /\ forall mf, every_div (lib_guard mf) t -> never_other (parse_yfile skind_of lib_class mf (mkst t ln)).
Proof.
  intros t ln F. split; [intros G; exact (proj1 (C44_material_ends _ _ _ _ lib_guard lib_defined lib_whole t ln F G))|].
  intros mf G. exact (proj1 (C44_file_ends _ _ _ _ lib_guard lib_defined lib_whole mf t ln F G)).
Qed.
(** ** C39: which classes look at MAT and MF of the HEAD they are given *)
Definition unchecked_classes : list sclass := [K1_455; K2_151; K2_152; K7_2; K7_4; K7_451; K8_454; K8_457; K8_459; K9; K10; K12; K13; K14; K28; K32_151].
Lemma head_mf_ignored {B} (k : skind B) h mat s mf : k_chk k = false ->
  (forall m f n, k_read k (mksdiv (sbase h) (smat h) mf (smt h)) m f n = k_read k h m f n) ->
  Sections.rd_section k (mksdiv (sbase h) (smat h) mf (smt h)) mat s = Sections.rd_section k h mat s.
Proof.
  intros H1 H2. unfold Sections.rd_section. rewrite H2, H1. reflexivity.
Qed.
Theorem C39_library : forall c,
  (~ In c unchecked_classes -> forall h mat s x s', Sections.rd_section (skind_of c) h mat s = Ok x s' -> smat h = mat /\ smf h = k_mf (skind_of c))
  /\ (In c unchecked_classes -> forall h mat s mf, Sections.rd_section (skind_of c) (mksdiv (sbase h) (smat h) mf (smt h)) mat s
                                                 = Sections.rd_section (skind_of c) h mat s).
Proof.
  intros c. split.
  - intros H h mat s x s' E. destruct (so_sound _ _ _ (lib_core c) _ _ _ _ _ E) as (K & _). apply K.
    destruct c; try reflexivity; exfalso; apply H; cbn; tauto.
  - intros H h mat s mf. unfold unchecked_classes in H. cbn [In] in H.
    repeat (destruct H as [<-|H]; [apply head_mf_ignored; [reflexivity|intros; reflexivity]|]). destruct H.
Qed.

(** ** a concrete tape meets the hypotheses *)
Definition ex_3 (mt : Z) : ysection := existT _ K3 (mksect 92235 r_pi mt (xtab1 0 3)).
Definition ex_452 : ysection := existT _ K1_452 (mksect 92235 r_pi 452 (PolynomialMultiplicity (xlist 0 0 0 [r_one; r_tiny]))).
Definition ex_f3 : yfile := mkyfile 3 [(1, ex_3 1); (102, ex_3 102)].
Definition ex_f1 : yfile := mkyfile 1 [(452, ex_452)].
Definition ex_mat : ymat := mkymat 9228 [(1, ex_f1); (3, ex_f3)].
Definition ex_tape : ytape := mkytape (mktpid (blanks 66) 0) [ex_mat; ex_mat].
Lemma ex_3_good mt : 0 < mt < 1000 -> good_ysec sclass sbody skind_of lib_rep lib_inv (ex_3 mt).
Proof.
  intros H. assert (M := C38_example). unfold meets in M. destruct M as (G & _ & R & I).
  unfold good_ysec. cbn [projT1 projT2 ex_3]. split; [exact G|]. split; [exact (conj H Logic.I)|]. split; [exact R|exact I].
Qed.
Example C31_example : good_file ex_f3.
Proof.
  split; [discriminate|]. split; [cbn; lia|].
  constructor; [|constructor; [|constructor]]; (split; [reflexivity|split; [reflexivity|apply ex_3_good; lia]]).
Qed.
Example C32_example : good_tape ex_tape /\ good_material ex_mat.
Proof.
  assert (M : good_material ex_mat).
  { split; [cbn; lia|]. split; [discriminate|]. split; [cbn; lia|].
    constructor; [|constructor; [|constructor]]; (split; [reflexivity|]); [|exact C31_example].
    split; [discriminate|]. split; [exact Logic.I|]. constructor; [|constructor]. split; [reflexivity|]. split; [reflexivity|].
    destruct C37_example_452 as (M & _). exact M. }
  split; [|exact M]. split; [reflexivity|]. split.
  2:{ split; [reflexivity|]. split; [discriminate|]. split; [reflexivity|]. constructor; [exact M|constructor; [exact M|constructor]]. }
  cbn [yt_id ex_tape tptext]. intros K. apply repeat_spec in K. discriminate K.
Qed.
