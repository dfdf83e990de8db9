(** PropClasses.v -- the table of section classes satisfies [table_ok], so that the
    theorems of PropTyped*.v hold for the library.  Generated by tools/classes.py. *)
From Coq Require Import ZifyBool ZifyNat.
From Verif Require Import Base Disco Records RealRound RealProofs Spec Sections SecSpec SectionProofs Tree TreeSpec Typed TypedSpec PropTyped PropTyped2 PropTyped3 Classes Sec1 Sec1Spec PropSec1 Sec451 Sec451Spec PropSec451 SecKit Sec9 Sec9Spec PropSec9 Sec4Spec PropSec4 Sec6 Sec6Spec PropSec6 Sec33 Sec33Spec PropSec33 Sec8 Sec8Spec PropSec8 Sec7 Sec7Spec PropSec7 Sec2 Sec2Spec PropSec2 Sec32 Sec32Spec PropSec32 Sec28 Sec28Proofs PropSec28.
Open Scope Z_scope.
Definition lib_rep (c : sclass) : sbody c -> Prop :=
  match c as c return sbody c -> Prop with
  | K1_451 => rep_descr
  | K1_452 => rep_mult
  | K1_455 => (fun b => rep_decay_data (fst b) /\ rep_mult (snd b))
  | K1_456 => rep_mult
  | K1_458 => rep_fission_q
  | K1_460 => rep_photons
  | K2_151 => (Forall rep_resisotope)
  | K2_152 => rep_152
  | K3 => rep_tab1
  | K23 => rep_tab1
  | K27 => rep_tab1
  | K4 => rep_body4
  | K5 => (Forall rep_p5)
  | K6 => rep_body6
  | K7_2 => rep_elastic
  | K7_4 => rep_thermal
  | K7_451 => (Forall endf_list)
  | K8_454 => (Forall endf_list)
  | K8_457 => rep_decay8
  | K8_459 => (Forall endf_list)
  | K9 => rep_levels
  | K10 => rep_levels
  | K12 => rep_production
  | K13 => rep_multiplicities
  | K14 => rep_body14
  | K15 => (Forall rep_p15)
  | K26 => (Forall (rep_product rep_law26))
  | K28 => (Forall endf_list)
  | K31 => (Forall rep_block)
  | K32_151 => (Forall rep_cisotope)
  | K33 => (rep_flagged rep_block)
  | K34 => (rep_flagged rep_block34)
  | K35 => (Forall endf_list)
  | K40 => (rep_flagged rep_level)
  end.
Definition lib_inv (c : sclass) : sbody c -> Prop :=
  match c as c return sbody c -> Prop with
  | K1_451 => inv_descr
  | K1_452 => inv_mult
  | K1_455 => (fun b => inv_decay_data (fst b) /\ inv_mult (snd b))
  | K1_456 => inv_mult
  | K1_458 => inv_fission_q
  | K1_460 => inv_photons
  | K2_151 => (some_of inv_resisotope)
  | K2_152 => inv_152
  | K3 => inv_tab1
  | K23 => inv_tab1
  | K27 => inv_tab1
  | K4 => inv_body4
  | K5 => (some_of inv_p5)
  | K6 => inv_body6
  | K7_2 => inv_elastic
  | K7_4 => inv_thermal
  | K7_451 => (some_of inv_element)
  | K8_454 => (many_of inv_yield)
  | K8_457 => inv_decay8
  | K8_459 => (many_of inv_yield)
  | K9 => inv_levels
  | K10 => inv_levels
  | K12 => inv_production
  | K13 => inv_multiplicities
  | K14 => inv_body14
  | K15 => (some_of inv_p15)
  | K26 => (many_of (inv_product LAW26 inv_law26))
  | K28 => (many_of inv_subshell)
  | K31 => (many_of inv_block)
  | K32_151 => (some_of inv_cisotope)
  | K33 => (inv_flagged inv_block)
  | K34 => (inv_flagged inv_block34)
  | K35 => (many_of inv_square35)
  | K40 => (inv_flagged inv_level)
  end.
Lemma lib_core c : section_core (skind_of c) (lib_rep c) (lib_inv c).
Proof.
  destruct c; cbn [sbody skind_of lib_rep lib_inv].
  - exact (section_rt_core _ _ _ (proj1 C36_section)).
  - exact (section_rt_core _ _ _ (proj1 C37_mt452)).
  - exact (section_rt_core _ _ _ (proj1 C37_mt455)).
  - exact (section_rt_core _ _ _ (proj1 C37_mt456)).
  - exact (section_rt_core _ _ _ (proj1 C45_mt458)).
  - exact (section_rt_core _ _ _ (proj1 C45_mt460)).
  - exact (section_rt_core _ _ _ C46_mf2_151).
  - exact (section_rt_core _ _ _ C46_mf2_152).
  - exact (section_rt_core _ _ _ (proj1 C38_mf3)).
  - exact (section_rt_core _ _ _ (proj1 C38_mf23)).
  - exact (section_rt_core _ _ _ (proj1 C38_mf27)).
  - exact (section_rt_core _ _ _ (proj1 C47_mf4)).
  - exact (section_rt_core _ _ _ (proj1 C48_mf5)).
  - exact (section_rt_core _ _ _ C49_mf6).
  - exact (section_rt_core _ _ _ (proj1 C50_mf7_2)).
  - exact (section_rt_core _ _ _ C50_mf7_4).
  - exact (section_rt_core _ _ _ C50_mf7_451).
  - exact (section_rt_core _ _ _ C51_mf8_454).
  - exact (section_rt_core _ _ _ C51_mf8_457).
  - exact (section_rt_core _ _ _ C51_mf8_459).
  - exact (section_rt_core _ _ _ (proj1 C52_mf9)).
  - exact (section_rt_core _ _ _ (proj1 C52_mf10)).
  - exact (section_rt_core _ _ _ C53_mf12).
  - exact (section_rt_core _ _ _ (proj1 C53_mf13)).
  - exact (section_rt_core _ _ _ (proj1 C53_mf14)).
  - exact (section_rt_core _ _ _ (proj1 C53_mf15)).
  - exact (section_rt_core _ _ _ C54_mf26).
  - exact (section_rt_core _ _ _ C54_mf28).
  - exact (section_rt_core _ _ _ C55_mf31).
  - exact C56_mf32_151.
  - exact (section_rt_core _ _ _ C55_mf33).
  - exact (section_rt_core _ _ _ C55_mf34).
  - exact (section_rt_core _ _ _ C55_mf35).
  - exact (section_rt_core _ _ _ C55_mf40).
Qed.
(** reading a section of file MF with HEAD d from the text t is not undefined behaviour if *)
Definition lib_guard (mf : Z) (d : sdiv) (t : text) : Prop := (mf = 2 -> tame151 t) /\ (mf = 2 -> tame152 (smat d) t) /\ (mf = 6 -> tame6 (smat d) (smt d) t) /\ (mf = 7 -> tame74 t) /\ (mf = 7 -> tame7451 (smt d) t) /\ (mf = 8 -> tame_yields 454 t) /\ (mf = 8 -> tame457 t) /\ (mf = 8 -> tame_yields 459 t) /\ (mf = 12 -> i32 (l1 (sbase d)) <> 2) /\ (mf = 26 -> tame26 (smat d) (smt d) t) /\ (mf = 28 -> tame28 (smt d) t) /\ (mf = 31 -> tame_cov_section 31 (smat d) (smt d) t) /\ (mf = 32 -> tame32 t) /\ (mf = 33 -> tame_cov_section 33 (smat d) (smt d) t) /\ (mf = 34 -> tame34 (smat d) (smt d) t) /\ (mf = 35 -> tame35 (smat d) (smt d) t) /\ (mf = 40 -> tame40 (smat d) (smt d) t).
(** MF of a class and its MT, if it has only one *)
Definition class_mf (c : sclass) : Z :=
  match c with
  | K1_451 => 1
  | K1_452 => 1
  | K1_455 => 1
  | K1_456 => 1
  | K1_458 => 1
  | K1_460 => 1
  | K2_151 => 2
  | K2_152 => 2
  | K3 => 3
  | K23 => 23
  | K27 => 27
  | K4 => 4
  | K5 => 5
  | K6 => 6
  | K7_2 => 7
  | K7_4 => 7
  | K7_451 => 7
  | K8_454 => 8
  | K8_457 => 8
  | K8_459 => 8
  | K9 => 9
  | K10 => 10
  | K12 => 12
  | K13 => 13
  | K14 => 14
  | K15 => 15
  | K26 => 26
  | K28 => 28
  | K31 => 31
  | K32_151 => 32
  | K33 => 33
  | K34 => 34
  | K35 => 35
  | K40 => 40
  end.
Definition class_mt (c : sclass) : option Z :=
  match c with
  | K1_451 => Some 451
  | K1_452 => Some 452
  | K1_455 => Some 455
  | K1_456 => Some 456
  | K1_458 => Some 458
  | K1_460 => Some 460
  | K2_151 => Some 151
  | K2_152 => Some 152
  | K3 => None
  | K23 => None
  | K27 => None
  | K4 => None
  | K5 => None
  | K6 => None
  | K7_2 => Some 2
  | K7_4 => Some 4
  | K7_451 => Some 451
  | K8_454 => Some 454
  | K8_457 => Some 457
  | K8_459 => Some 459
  | K9 => None
  | K10 => None
  | K12 => None
  | K13 => None
  | K14 => None
  | K15 => None
  | K26 => None
  | K28 => None
  | K31 => None
  | K32_151 => Some 151
  | K33 => None
  | K34 => None
  | K35 => None
  | K40 => None
  end.
Lemma class_mf_ok c : class_mf c = k_mf (skind_of c). Proof. destruct c; reflexivity. Qed.
Lemma class_mt_ok c : class_mt c = k_fix (skind_of c). Proof. destruct c; reflexivity. Qed.
Lemma lib_class_inv mf mt c : lib_class mf mt = Some c ->
  mf = class_mf c /\ match class_mt c with Some n => mt = n | None => True end.
Proof.
  intros E. unfold lib_class in E.
  repeat match type of E with
         | (if ?a && ?b then _ else _) = _ =>
             let A := fresh in destruct (a && b) eqn:A;
             [injection E as <-; apply andb_prop in A; exact (conj (proj1 (Z.eqb_eq _ _) (proj1 A)) (proj1 (Z.eqb_eq _ _) (proj2 A)))|cbv iota in E; clear A]
         | (if ?b then _ else _) = _ =>
             let B := fresh in destruct b eqn:B; [injection E as <-; exact (conj (proj1 (Z.eqb_eq _ _) B) Logic.I)|cbv iota in E; clear B]
         end. discriminate.
Qed.
Lemma lib_lines c : section_lines (skind_of c) (lib_guard (k_mf (skind_of c))).
Proof.
  destruct c; cbn [sbody skind_of].
  - exact (section_rt_lines _ _ _ _ (proj1 C36_section)).
  - exact (section_rt_lines _ _ _ _ (proj1 C37_mt452)).
  - exact (section_rt_lines _ _ _ _ (proj1 C37_mt455)).
  - exact (section_rt_lines _ _ _ _ (proj1 C37_mt456)).
  - exact (section_rt_lines _ _ _ _ (proj1 C45_mt458)).
  - exact (section_rt_lines _ _ _ _ (proj1 C45_mt460)).
  - exact (section_rt_lines _ _ _ _ C46_mf2_151).
  - exact (section_rt_lines _ _ _ _ C46_mf2_152).
  - exact (section_rt_lines _ _ _ _ (proj1 C38_mf3)).
  - exact (section_rt_lines _ _ _ _ (proj1 C38_mf23)).
  - exact (section_rt_lines _ _ _ _ (proj1 C38_mf27)).
  - exact (section_rt_lines _ _ _ _ (proj1 C47_mf4)).
  - exact (section_rt_lines _ _ _ _ (proj1 C48_mf5)).
  - exact (section_rt_lines _ _ _ _ C49_mf6).
  - exact (section_rt_lines _ _ _ _ (proj1 C50_mf7_2)).
  - exact (section_rt_lines _ _ _ _ C50_mf7_4).
  - exact (section_rt_lines _ _ _ _ C50_mf7_451).
  - exact (section_rt_lines _ _ _ _ C51_mf8_454).
  - exact (section_rt_lines _ _ _ _ C51_mf8_457).
  - exact (section_rt_lines _ _ _ _ C51_mf8_459).
  - exact (section_rt_lines _ _ _ _ (proj1 C52_mf9)).
  - exact (section_rt_lines _ _ _ _ (proj1 C52_mf10)).
  - exact (section_rt_lines _ _ _ _ C53_mf12).
  - exact (section_rt_lines _ _ _ _ (proj1 C53_mf13)).
  - exact (section_rt_lines _ _ _ _ (proj1 C53_mf14)).
  - exact (section_rt_lines _ _ _ _ (proj1 C53_mf15)).
  - exact (section_rt_lines _ _ _ _ C54_mf26).
  - exact (section_rt_lines _ _ _ _ C54_mf28).
  - exact (section_rt_lines _ _ _ _ C55_mf31).
  - intros h mat s x s1 E G. apply (C56_mf32_151_lines h mat s x s1 E). change (lib_guard 32 h (buf s)) in G. do 12 apply proj2 in G. apply proj1 in G. exact (G eq_refl).
  - exact (section_rt_lines _ _ _ _ C55_mf33).
  - exact (section_rt_lines _ _ _ _ C55_mf34).
  - exact (section_rt_lines _ _ _ _ C55_mf35).
  - exact (section_rt_lines _ _ _ _ C55_mf40).
Qed.
Theorem C31_classes : table_ok sclass sbody skind_of lib_class lib_rep lib_inv
  /\ (forall c d mat s, int32 (round_int (c1 (sbase d))) -> lib_guard (k_mf (skind_of c)) d (buf s) ->
       never_other (Sections.rd_section (skind_of c) d mat s))
  /\ forall c, section_lines (skind_of c) (lib_guard (k_mf (skind_of c))).
Proof.
  split; [|split; [|exact lib_lines]].
  2:{ intros c d mat s Hz G. destruct c; cbn [sbody skind_of].
    - exact (proj2 C36_section d mat s Hz).
    - exact (proj2 C37_mt452 d mat s Hz).
    - exact (proj2 C37_mt455 d mat s Hz).
    - exact (proj2 C37_mt456 d mat s Hz).
    - exact (proj2 C45_mt458 d mat s Hz).
    - exact (proj2 C45_mt460 d mat s Hz).
    - apply C46_mf2_151_safe; [exact Hz|]. rewrite <- class_mf_ok in G. apply proj1 in G. exact (G eq_refl).
    - apply C46_mf2_152_safe; [exact Hz|]. rewrite <- class_mf_ok in G. do 1 apply proj2 in G. apply proj1 in G. exact (G eq_refl).
    - exact (proj2 C38_mf3 d mat s Hz).
    - exact (proj2 C38_mf23 d mat s Hz).
    - exact (proj2 C38_mf27 d mat s Hz).
    - exact (proj2 C47_mf4 d mat s Hz).
    - exact (proj2 C48_mf5 d mat s Hz).
    - apply C49_mf6_safe; [exact Hz|]. rewrite <- class_mf_ok in G. do 2 apply proj2 in G. apply proj1 in G. exact (G eq_refl).
    - exact (proj2 C50_mf7_2 d mat s Hz).
    - apply C50_mf7_4_safe; [exact Hz|]. rewrite <- class_mf_ok in G. do 3 apply proj2 in G. apply proj1 in G. exact (G eq_refl).
    - apply C50_mf7_451_safe; [exact Hz|]. rewrite <- class_mf_ok in G. do 4 apply proj2 in G. apply proj1 in G. exact (G eq_refl).
    - apply C51_mf8_454_safe; [exact Hz|]. rewrite <- class_mf_ok in G. do 5 apply proj2 in G. apply proj1 in G. exact (G eq_refl).
    - apply C51_mf8_457_safe; [exact Hz|]. rewrite <- class_mf_ok in G. do 6 apply proj2 in G. apply proj1 in G. exact (G eq_refl).
    - apply C51_mf8_459_safe; [exact Hz|]. rewrite <- class_mf_ok in G. do 7 apply proj2 in G. apply proj1 in G. exact (G eq_refl).
    - exact (proj2 C52_mf9 d mat s Hz).
    - exact (proj2 C52_mf10 d mat s Hz).
    - apply C53_mf12_safe; [exact Hz|]. rewrite <- class_mf_ok in G. do 8 apply proj2 in G. apply proj1 in G. exact (G eq_refl).
    - exact (proj2 C53_mf13 d mat s Hz).
    - exact (proj2 C53_mf14 d mat s Hz).
    - exact (proj2 C53_mf15 d mat s Hz).
    - apply C54_mf26_safe; [exact Hz|]. rewrite <- class_mf_ok in G. do 9 apply proj2 in G. apply proj1 in G. exact (G eq_refl).
    - apply C54_mf28_safe; [exact Hz|]. rewrite <- class_mf_ok in G. do 10 apply proj2 in G. apply proj1 in G. exact (G eq_refl).
    - apply C55_mf31_safe; [exact Hz|]. rewrite <- class_mf_ok in G. do 11 apply proj2 in G. apply proj1 in G. exact (G eq_refl).
    - apply C56_mf32_151_safe; [exact Hz|]. rewrite <- class_mf_ok in G. do 12 apply proj2 in G. apply proj1 in G. exact (G eq_refl).
    - apply C55_mf33_safe; [exact Hz|]. rewrite <- class_mf_ok in G. do 13 apply proj2 in G. apply proj1 in G. exact (G eq_refl).
    - apply C55_mf34_safe; [exact Hz|]. rewrite <- class_mf_ok in G. do 14 apply proj2 in G. apply proj1 in G. exact (G eq_refl).
    - apply C55_mf35_safe; [exact Hz|]. rewrite <- class_mf_ok in G. do 15 apply proj2 in G. apply proj1 in G. exact (G eq_refl).
    - apply C55_mf40_safe; [exact Hz|]. rewrite <- class_mf_ok in G. do 16 apply proj2 in G.  exact (G eq_refl).
  }
  split.
  - exact lib_core.
  - intros c. rewrite <- class_mf_ok. destruct c; (split; [cbn [class_mf]; lia|split; [reflexivity|discriminate]]).
  - intros c n H. rewrite <- class_mt_ok in H. destruct c; try discriminate H; injection H as <-; lia.
  - intros c n H. rewrite <- class_mt_ok in H. rewrite <- class_mf_ok. destruct c; try discriminate H; injection H as <-; reflexivity.
  - intros c n mt H E. rewrite <- class_mt_ok in H. apply lib_class_inv in E. rewrite H in E. exact (proj2 E).
  - intros c mt H. rewrite <- class_mt_ok in H. rewrite <- class_mf_ok. destruct c; try discriminate H; reflexivity.
  - intros mf mt c E. rewrite <- class_mf_ok. apply lib_class_inv in E. symmetry. exact (proj1 E).
  - intros c. rewrite <- class_mf_ok, <- class_mt_ok. destruct c; cbn [class_mf]; intros H; try discriminate H; cbn [class_mt]; auto.
Qed.

(** ** the theorems for the classes of the library *)
From Verif Require Import PropRecords ExKit.
Definition lib_table := proj1 C31_classes.
Definition lib_safe := proj1 (proj2 C31_classes).
Notation ysection := (ysec sclass sbody).
Notation yfile := (Typed.yfile sclass sbody). Notation ymat := (Typed.ymat sclass sbody). Notation ytape := (Typed.ytape sclass sbody).
Definition good_file := good_yfile sclass sbody skind_of lib_rep lib_inv.
Definition good_material := good_ymat sclass sbody skind_of lib_rep lib_inv.
Definition good_tape := good_ytape sclass sbody skind_of lib_rep lib_inv.
Theorem C31_library : forall f mat, 0 < mat < 10000 -> good_file f ->
  exists t n, pr_yfile skind_of f mat = Val t
    /\ forall rest ln, parse_yfile skind_of lib_class (yf_mf f) (mkst (t ++ rest) ln) = Ok f (mkst rest (ln + n)).
Proof. intros f mat H G. destruct (C31_round_trip _ _ _ _ _ _ lib_table f mat H G) as (t & P & R). eauto. Qed.
Theorem C32_library_material : forall m, good_material m ->
  exists t n, pr_ymat skind_of m = Val t
    /\ forall rest ln, parse_ymat skind_of lib_class (mkst (t ++ rest) ln) = Ok m (mkst rest (ln + n)).
Proof. intros m G. destruct (C32_material_round_trip _ _ _ _ _ _ lib_table m G) as (t & P & R). eauto. Qed.
Theorem C32_library_tape : forall t, good_tape t ->
  exists u n, pr_ytape skind_of t = Val u
    /\ forall rest ln, rd_ytape skind_of lib_class (mkst (u ++ rest) ln) = Ok t (mkst rest (ln + n)).
Proof. intros t G. destruct (C32_tape_exact _ _ _ _ _ _ lib_table t G) as (u & P & R). eauto. Qed.
Theorem C30_library : (forall f mat, 0 < mat < 10000 -> good_file f ->
    exists F, to_file skind_of f mat = Val F /\ tf_mat F = mat /\ tf_mf F = yf_mf f
      /\ pr_yfile skind_of f mat = file_content F /\ file_parse skind_of lib_class (yf_mf f) F = Val f)
  /\ forall m, good_material m ->
    exists X, to_mat skind_of m = Val X /\ tm_mat X = ym_mat m
      /\ pr_ymat skind_of m = mat_content X /\ mat_parse skind_of lib_class X = Val m.
Proof. split; [exact (C30_file _ _ _ _ _ _ lib_table)|exact (C30_material _ _ _ _ _ _ lib_table)]. Qed.
(** Reading any text as a file MF or as a material ends, in an object or in a
    std::exception, unless ZA of a HEAD overflows, a SEND of file 8 is taken for a
    HEAD, or a section whose reader has undefined behaviour is met: *)
Lemma lib_defined : forall mf d c mat s, lib_class mf (smt d) = Some c -> lib_guard mf d (buf s) ->
  int32 (round_int (c1 (sbase d))) -> never_other (Sections.rd_section (skind_of c) d mat s).
Proof.
  intros mf d c mat s E G Hz. apply lib_safe; [exact Hz|]. rewrite (tk_fun _ _ _ _ _ _ lib_table _ _ _ E). exact G.
Qed.
Lemma lib_whole : forall mf d c mat s x s', lib_class mf (smt d) = Some c -> lib_guard mf d (buf s) ->
  Sections.rd_section (skind_of c) d mat s = Ok x s' -> exists n, buf s' = drop_lines n (buf s).
Proof.
  intros mf d c mat s x s' E G R. rewrite <- (tk_fun _ _ _ _ _ _ lib_table _ _ _ E) in G.
  destruct (lib_lines c d mat s x s' R G) as (s1 & (n & E1 & _) & (m & E2 & _) & _). exists (n + m)%nat. rewrite <- drop_drop, <- E1. exact E2.
Qed.
Theorem C44_library : forall t ln, fine t ->
  (every_div (fun h _ => every_div (lib_guard (smf h)) t) t -> never_other (parse_ymat skind_of lib_class (mkst t ln)))
  /\ forall mf, every_div (lib_guard mf) t -> never_other (parse_yfile skind_of lib_class mf (mkst t ln)).
Proof.
  intros t ln F. split; [intros G; exact (proj1 (C44_material_ends _ _ _ _ lib_guard lib_defined lib_whole t ln F G))|].
  intros mf G. exact (proj1 (C44_file_ends _ _ _ _ lib_guard lib_defined lib_whole mf t ln F G)).
Qed.
(** ** C39: which classes look at MAT and MF of the HEAD they are given *)
Definition unchecked_classes : list sclass := [K1_455; K2_151; K2_152; K7_2; K7_4; K7_451; K8_454; K8_457; K8_459; K9; K10; K12; K13; K14; K28; K32_151].
Lemma head_mf_ignored {B} (k : skind B) h mat s mf : k_chk k = false ->
  (forall m f n, k_read k (mksdiv (sbase h) (smat h) mf (smt h)) m f n = k_read k h m f n) ->
  Sections.rd_section k (mksdiv (sbase h) (smat h) mf (smt h)) mat s = Sections.rd_section k h mat s.
Proof.
  intros H1 H2. unfold Sections.rd_section. rewrite H2, H1. reflexivity.
Qed.
Theorem C39_library : forall c,
  (~ In c unchecked_classes -> forall h mat s x s', Sections.rd_section (skind_of c) h mat s = Ok x s' -> smat h = mat /\ smf h = k_mf (skind_of c))
  /\ (In c unchecked_classes -> forall h mat s mf, Sections.rd_section (skind_of c) (mksdiv (sbase h) (smat h) mf (smt h)) mat s
                                                 = Sections.rd_section (skind_of c) h mat s).
Proof.
  intros c. split.
  - intros H h mat s x s' E. destruct (so_sound _ _ _ (lib_core c) _ _ _ _ _ E) as (K & _). apply K.
    destruct c; try reflexivity; exfalso; apply H; cbn; tauto.
  - intros H h mat s mf. unfold unchecked_classes in H. cbn [In] in H.
    repeat (destruct H as [<-|H]; [apply head_mf_ignored; [reflexivity|intros; reflexivity]|]). destruct H.
Qed.

(** ** a concrete tape meets the hypotheses *)
Definition ex_3 (mt : Z) : ysection := existT _ K3 (mksect 92235 r_pi mt (xtab1 0 3)).
Definition ex_452 : ysection := existT _ K1_452 (mksect 92235 r_pi 452 (PolynomialMultiplicity (xlist 0 0 0 [r_one; r_tiny]))).
Definition ex_f3 : yfile := mkyfile 3 [(1, ex_3 1); (102, ex_3 102)].
Definition ex_f1 : yfile := mkyfile 1 [(452, ex_452)].
Definition ex_mat : ymat := mkymat 9228 [(1, ex_f1); (3, ex_f3)].
Definition ex_tape : ytape := mkytape (mktpid (blanks 66) 0) [ex_mat; ex_mat].
Lemma ex_3_good mt : 0 < mt < 1000 -> good_ysec sclass sbody skind_of lib_rep lib_inv (ex_3 mt).
Proof.
  intros H. assert (M := C38_example). unfold meets in M. destruct M as (G & _ & R & I).
  unfold good_ysec. cbn [projT1 projT2 ex_3]. split; [exact G|]. split; [exact (conj H Logic.I)|]. split; [exact R|exact I].
Qed.
Example C31_example : good_file ex_f3.
Proof.
  split; [discriminate|]. split; [cbn; lia|].
  constructor; [|constructor; [|constructor]]; (split; [reflexivity|split; [reflexivity|apply ex_3_good; lia]]).
Qed.
Example C32_example : good_tape ex_tape /\ good_material ex_mat.
Proof.
  assert (M : good_material ex_mat).
  { split; [cbn; lia|]. split; [discriminate|]. split; [cbn; lia|].
    constructor; [|constructor; [|constructor]]; (split; [reflexivity|]); [|exact C31_example].
    split; [discriminate|]. split; [exact Logic.I|]. constructor; [|constructor]. split; [reflexivity|]. split; [reflexivity|].
    destruct C37_example_452 as (M & _). exact M. }
  split; [|exact M]. split; [reflexivity|]. split.
  2:{ split; [reflexivity|]. split; [discriminate|]. split; [reflexivity|]. constructor; [exact M|constructor; [exact M|constructor]]. }
  cbn [yt_id ex_tape tptext]. intros K. apply repeat_spec in K. discriminate K.
Qed.
