(** PropRefuted.v -- what is accepted although it should not be: the numbers of a tree file and a tree section (C28), counts and
    flags modulo 2^32 (C35), boundaries of a TAB2 (C35). *)
From Coq Require Import ZifyBool ZifyNat.
From Verif Require Import Base Disco Records RecordProofs Spec LineFacts Sections SecSpec SectionProofs Sec1 Sec451 ExKit PropRecords Tree TreeSpec Typed Classes PropClasses PropAgree2 Parse.
Open Scope Z_scope.
Notation length := List.length.

(** a tree file takes the sections of another material *)
Definition mixed_file : text := sec_of (ex_3 1) 9228 3 ++ sec_of (ex_3 102) 9437 3 ++ fend_of 9228.
Theorem C28_mixed_file_refuted : exists f s x, index_file mixed_file = Ok f s /\ tf_mat f = 9228 /\ file_section f 102 = Val x /\ ts_mat x = 9437.
Proof. do 3 eexists. split; [vm_compute; reflexivity|]. repeat split; vm_compute; reflexivity. Qed.
(** a tree section takes the lines of other materials and files up to the next line with MT 0 *)
Definition mixed_section : text :=
  pr_sdiv (mksdiv (mkcont (of_int 92235) r_pi 0 0 0 0) 9228 3 1) ++ pr_cont (mkcont rzero rzero 0 0 0 0) 9437 10 2 ++ match pr_SEND 125 6 with Val t => t | _ => [] end.
Theorem C28_mixed_section_refuted : exists s, index_sec mixed_section = Ok (mktsec 9228 3 1 mixed_section) s /\ buf s = [].
Proof. eexists. split; [vm_compute; reflexivity|reflexivity]. Qed.
(** NZ = 2^32 + n is accepted with n records *)
Theorem C35_sequence_wraparound_refuted : forall n C1 C2 L1 L2 int (l : list listr), (0 < n)%nat -> Z.of_nat n < 2 ^ 32 -> length l = n -> 
  let t := mktab2 C1 C2 L1 L2 [2 ^ 32 + Z.of_nat n] [int] in
  make_tab2 C1 C2 L1 L2 [2 ^ 32 + Z.of_nat n] [int] = Val t /\ make_iseq (fun _ => true) t l = Val (mkiseq t l) /\ tn2 t <> len l.
Proof.
  intros n C1 C2 L1 L2 int l Hn Hb Hl t. split; [reflexivity|]. assert (E : tn2 t = 2 ^ 32 + Z.of_nat n) by reflexivity. split; [|rewrite E; unfold len; lia].
  unfold make_iseq. rewrite E, Hl. unfold u32. rewrite (Z.mod_small (Z.of_nat n)) by (change 4294967296 with (2 ^ 32); lia).
  change 4294967296 with (2 ^ 32). replace (2 ^ 32 + Z.of_nat n) with (Z.of_nat n + 1 * 2 ^ 32) by lia. rewrite Z.mod_add by lia. rewrite Z.mod_small by lia.
  replace (Z.of_nat n =? 0) with false by lia. rewrite Z.eqb_refl. reflexivity.
Qed.
(** boundaries of a TAB2 may be negative *)
Theorem C35_negative_boundary_refuted : forall C1 C2 L1 L2 z int, make_tab2 C1 C2 L1 L2 [z] [int] = Val (mktab2 C1 C2 L1 L2 [z] [int]) /\ tn2 (mktab2 C1 C2 L1 L2 [z] [int]) = z.
Proof. split; reflexivity. Qed.
(** LNU = 2^32 + 1 is read as LNU = 1: a flag is cut to an int *)
Definition big_flag : text :=
  pr_sdiv (mksdiv (mkcont (of_int 92235) r_pi 0 (2 ^ 32 + 1) 0 0) 9228 1 452) ++ skipn 81 (sec_of ex_452 9228 1).
Theorem C35_flag_wraparound_refuted : exists h y s, rd_sdiv (mkst big_flag 0) = Ok h s /\ l2 (sbase h) = 2 ^ 32 + 1
  /\ (exists s', Sections.rd_section (skind_of K1_452) h 9228 s = Ok y s' /\ buf s' = []) /\ LNU (s_body y) = 1 /\ y = projT2 ex_452.
Proof. do 3 eexists. split; [vm_compute; reflexivity|]. split; [reflexivity|]. split; [eexists; split; [vm_compute; reflexivity|reflexivity]|]. split; reflexivity. Qed.
