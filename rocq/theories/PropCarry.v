(** PropCarry.v -- C39: which MAT, MF and MT the records of a section carry, class by class. *)
From Coq Require Import ZifyBool ZifyNat.
From Verif Require Import Base Disco Records Spec LineFacts Sections SecSpec Codec PropRecords ExKit Sec1 Classes PropClasses Sec32Local PropTrunc.
Open Scope Z_scope.

(** the classes whose records are compared with the MT of the HEAD they are given, although
    the section number is fixed *)
Definition head_mt_classes : list sclass := [K1_452; K1_456; K7_451].
(** the classes whose records are compared with the MAT of the HEAD they are given, which may
    not be the MAT the section is read for *)
Definition head_mat_classes : list sclass := [K2_152; K14].

Theorem C39_records : forall c h mat s x s', Sections.rd_section (skind_of c) h mat s = Ok x s' -> (c = K32_151 -> long_lines (buf s)) ->
  exists s1 m n,
    consumed (carries m (k_mf (skind_of c)) n) s s1
    /\ consumed (ends_section mat (k_mf (skind_of c))) s1 s' /\ line s' = line s1 + 1
    /\ (In c head_mat_classes -> m = smat h) /\ (~ In c head_mat_classes -> m = mat)
    /\ (In c head_mt_classes -> n = smt h) /\ (~ In c head_mt_classes -> n = s_mt x).
Proof.
  intros c h mat s x s' H G. destruct (C09_sections c h mat s x s' H G) as (s1 & A & B & C).
  destruct (so_sound _ _ _ (lib_core c) h mat s x s' H) as (K & _ & _ & M & _).
  exists s1, (k_rmat (skind_of c) h mat), (k_rmt (skind_of c) h). split; [exact A|]. split; [exact B|]. split; [exact C|].
  rewrite M. unfold head_mat_classes, head_mt_classes. cbn [In].
  destruct c; cbn [skind_of] in *; (split; [|split; [|split]]); intros I; try reflexivity;
    first [now apply K | exfalso; apply I; tauto | exfalso; intuition discriminate].
Qed.
(** the class of 1/452 reads a section numbered 455 and calls it 452 *)
Definition head_455 : sdiv := mksdiv (mkcont (of_int 92235) r_pi 0 1 0 0) 9228 1 455.
Definition text_455 : text := pr_list (xlist 0 0 0 [r_one; r_pi]) 9228 1 455 ++ match pr_SEND 9228 1 with Val t => t | _ => [] end.
Example C39_records_example :
  Sections.rd_section (skind_of K1_452) head_455 9228 (mkst text_455 0)
     = Ok (mksect 92235 r_pi 452 (PolynomialMultiplicity (xlist 0 0 0 [r_one; r_pi]))) (mkst [] 3).
Proof.
  vm_compute. reflexivity.
Qed.
