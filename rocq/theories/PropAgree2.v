(** PropAgree2.v -- C62 for the section classes of the library, and where the two
    readers of a tape disagree. *)
From Coq Require Import ZifyBool ZifyNat.
From Verif Require Import Base Disco Records RealRound RealProofs Spec Sections SecSpec SectionProofs Tree TreeSpec TreeGrammar PropTree Typed TypedSpec PropTyped PropTyped2 PropTyped3 PropAgree
  Classes Sec1 Sec1Spec PropSec1 Sec451 Sec451Spec PropSec451 SecKit Sec9 Sec9Spec PropSec9 Sec4Spec PropSec4 Sec6 Sec6Spec PropSec6 Sec33 Sec33Spec PropSec33
  Sec8 Sec8Spec PropSec8 Sec7 Sec7Spec PropSec7 Sec2 Sec2Spec PropSec2 Sec28 PropSec28 Sec32 Sec32Spec PropSec32 PropRecords ExKit PropClasses SecLong Sec32Local.
Open Scope Z_scope.

(** every class but 32/151 reads its own lines only *)
Lemma lib_rt c : c <> K32_151 -> section_rt (skind_of c) (lib_rep c) (lib_inv c).
Proof.
  intros N. destruct c; cbn [sbody skind_of lib_rep lib_inv].
  - exact (proj1 C36_section).
  - exact (proj1 C37_mt452).
  - exact (proj1 C37_mt455).
  - exact (proj1 C37_mt456).
  - exact (proj1 C45_mt458).
  - exact (proj1 C45_mt460).
  - exact C46_mf2_151.
  - exact C46_mf2_152.
  - exact (proj1 C38_mf3).
  - exact (proj1 C38_mf23).
  - exact (proj1 C38_mf27).
  - exact (proj1 C47_mf4).
  - exact (proj1 C48_mf5).
  - exact C49_mf6.
  - exact (proj1 C50_mf7_2).
  - exact C50_mf7_4.
  - exact C50_mf7_451.
  - exact C51_mf8_454.
  - exact C51_mf8_457.
  - exact C51_mf8_459.
  - exact (proj1 C52_mf9).
  - exact (proj1 C52_mf10).
  - exact C53_mf12.
  - exact (proj1 C53_mf13).
  - exact (proj1 C53_mf14).
  - exact (proj1 C53_mf15).
  - exact C54_mf26.
  - exact C54_mf28.
  - exact C55_mf31.
  - congruence.
  - exact C55_mf33.
  - exact C55_mf34.
  - exact C55_mf35.
  - exact C55_mf40.
Qed.

(** 32/151 does so when the lines have 66 columns *)
Lemma lib_lines c n : (c = K32_151 -> (66 <= n)%nat) -> section_rt (skind_of c) (lib_rep c) (lib_inv c) \/ (section_long (skind_of c) /\ (66 <= n)%nat).
Proof. intros H. assert (D : c = K32_151 \/ c <> K32_151) by (destruct c; (now left) || (right; discriminate)). destruct D as [->|D]; [right|left; now apply lib_rt]. split; [exact long_32|auto]. Qed.
Lemma class_32 mf mt : lib_class mf mt = Some K32_151 -> mf = 32.
Proof. intros E. destruct (lib_class_inv _ _ _ E) as (K & _). exact K. Qed.

(** a tape where every section is closed by one SEND, every file by one FEND and every
    material by one MEND; without a file 30; a file 8 begins with 454, 457 or 459;
    the line that closes a section of file 32 has at least 66 columns *)
Definition plain_source (t : tape_src) : Prop :=
  0 < len (x_mats t) < 2 ^ 31
  /\ forall m, In m (x_mats t) -> len (x_mends m) = 1 /\ 0 < m_mat m
  /\ forall f, In f (x_files m) -> len (x_fends f) = 1 /\ f_mf f <> 30
       /\ (f_mf f = 8 -> let mt := x_mt (hd sec0 (x_secs f)) in mt = 454 \/ mt = 457 \/ mt = 459)
  /\ forall s, In s (x_secs f) -> x_sends s = [] /\ (f_mf f = 32 -> (66 <= length (x_last s))%nat).
(** the tree section, parsed as section::Type< MF, MT >, gives the typed section [y] *)
Definition parsed_as (s : tsec) (y : ysection) : Prop :=
  lib_class (ts_mf s) (ts_mt s) = Some (projT1 y) /\ sec_parse (skind_of (projT1 y)) s = Val (projT2 y).
(** a material of the tree and a typed material hold the same files and sections, and every
    typed section is what its tree section parses as *)
Definition same_mat (x : tmat) (y : ymat) : Prop :=
  tm_mat x = ym_mat y
  /\ (forall mf, mat_hasMF x mf = ymat_hasMF y mf) /\ (forall mf mt, mat_hasMFMT x mf mt = ymat_hasMFMT y mf mt)
  /\ (forall mf mt v, ymat_section y mf mt = Val v <-> exists s, mat_section x mf mt = Val s /\ parsed_as s v).
Lemma plain_source_ok t : tape_ok t -> plain_source t -> plain_tape sclass sbody skind_of lib_class lib_rep lib_inv t.
Proof.
  intros (_ & _ & Om & _) (H & Hm). split; [exact H|]. rewrite Forall_forall in *. intros m Im. destruct (Hm m Im) as (E & P & Hf). split; [|split; [exact E|exact P]].
  pose proof (Om m Im) as (_ & Of & _). rewrite Forall_forall in *. intros f If. destruct (Hf f If) as (Ef & N30 & E8 & Hs). split; [|split; [exact Ef|split; [exact N30|exact E8]]].
  apply Forall_forall. intros s Is. destruct (Hs s Is) as (H1 & H2). split; [exact H1|]. intros c Ec. apply lib_lines. intros ->. apply H2. apply class_32 in Ec.
  pose proof (Of f If) as (_ & _ & Hmf & _). rewrite Forall_forall in Hmf. rewrite <- (Hmf s Is). exact Ec.
Qed.
(** ** C62 *)
Theorem C62_library_accepted : forall src t ln, tape_ok src -> plain_source src -> tape_text src t ->
  exists T s, index_tape t = Ok T s
  /\ ((exists yt s', rd_ytape skind_of lib_class (mkst t ln) = Ok yt s')
      <-> forall mat l x mf mt s, tape_material T mat = Val l -> In x l -> mat_section x mf mt = Val s -> exists y, parsed_as s y).
Proof. intros src t ln O P Ht. exact (C62_accepted _ _ _ _ _ _ lib_table src t ln O (plain_source_ok _ O P) Ht). Qed.
Theorem C62_library_agree : forall src t ln, tape_ok src -> plain_source src -> tape_text src t ->
  exists T s, index_tape t = Ok T s
  /\ forall yt s', rd_ytape skind_of lib_class (mkst t ln) = Ok yt s' ->
    tt_tpid T = Some (yt_id yt) /\ len (yt_mats yt) = len (x_mats src)
    /\ forall mat, tape_has T mat = ytape_has yt mat /\ tape_number T mat = len (ytape_material yt mat)
      /\ (tape_has T mat = true -> exists l, tape_material T mat = Val l /\ Forall2 same_mat l (ytape_material yt mat)).
Proof. intros src t ln O P Ht. exact (C62_agree _ _ _ _ _ _ lib_table src t ln O (plain_source_ok _ O P) Ht). Qed.
(** every well-formed tape prints as such a text *)
Theorem C62_library_printed : forall yt, good_tape yt ->
  exists u src, pr_ytape skind_of yt = Val u /\ tape_ok src /\ plain_source src /\ tape_text src u.
Proof.
  intros yt G. destruct (C62_printed _ _ _ _ _ _ lib_table yt G) as (u & src & P & O & (Hn & Pl) & Ht & Hf).
  - intros m f mt c Im If E. destruct (lib_lines c 66 ltac:(lia)) as [K|(K & _)]; auto.
  - exists u, src. split; [exact P|]. split; [exact O|]. split; [|exact Ht]. split; [exact Hn|]. intros m Im. rewrite Forall_forall in Pl. destruct (Pl m Im) as (Pf & E & Hp).
    split; [exact E|]. split; [exact Hp|]. intros f If. rewrite Forall_forall in Pf. destruct (Pf f If) as (Ps & Ef & N30 & E8). split; [exact Ef|]. split; [exact N30|]. split; [exact E8|].
    intros s Is. rewrite Forall_forall in Ps. split; [exact (proj1 (Ps s Is))|]. intros _. exact (proj2 (Hf m f Im If) s Is).
Qed.
(** the hypotheses are met, and both sides of C62_library_accepted hold *)
Example C62_example : exists u src yt s, tape_ok src /\ plain_source src /\ tape_text src u /\ rd_ytape skind_of lib_class (mkst u 0) = Ok yt s
  /\ ytape_has yt 9228 = true /\ len (ytape_material yt 9228) = 2.
Proof.
  destruct C32_example as (G & _). destruct (C62_library_printed ex_tape G) as (u & src & P & O & S & Ht).
  destruct (C32_library_tape ex_tape G) as (u' & n & P' & R). assert (u' = u) by congruence. subst u'. specialize (R [] 0). rewrite app_nil_r in R.
  exists u, src, ex_tape. eexists. repeat (split; [eassumption|]). split; reflexivity.
Qed.

(** also with a file 32 *)
Definition ex_32 : ysection := existT _ K32_151 (mksect 92235 r_pi 151 x32_body).
Definition ex_f32 : yfile := mkyfile 32 [(151, ex_32)].
Definition ex_tape32 : ytape := mkytape (mktpid (blanks 66) 0) [mkymat 9228 [(3, ex_f3); (32, ex_f32)]].
Example C62_example_32 : exists u src yt s, tape_ok src /\ plain_source src /\ tape_text src u /\ rd_ytape skind_of lib_class (mkst u 0) = Ok yt s
  /\ exists y, ytape_material yt 9228 = [y] /\ ymat_hasMFMT y 32 151 = true.
Proof.
  assert (G : good_tape ex_tape32).
  { destruct C32_example as ((G1 & G2 & _) & (_ & _ & _ & F)). cbn [ex_mat ym_files] in F. apply Forall_cons_iff in F. destruct F as (_ & F). apply Forall_cons_iff in F. destruct F as (F3 & _).
    split; [exact G1|]. split; [exact G2|]. split; [reflexivity|]. split; [discriminate|]. split; [reflexivity|]. constructor; [|constructor].
    split; [cbn; lia|]. split; [discriminate|]. split; [cbn; lia|]. constructor; [exact F3|]. constructor; [|constructor]. split; [reflexivity|].
    split; [discriminate|]. split; [exact Logic.I|]. constructor; [|constructor]. split; [reflexivity|]. split; [reflexivity|]. exact C56_example. }
  destruct (C62_library_printed ex_tape32 G) as (u & src & P & O & S & Ht).
  destruct (C32_library_tape ex_tape32 G) as (u' & n & P' & R). assert (u' = u) by congruence. subst u'. specialize (R [] 0). rewrite app_nil_r in R.
  exists u, src, ex_tape32. eexists. repeat (split; [eassumption|]). eexists. split; reflexivity.
Qed.

(** ** where they disagree *)
Definition sec_of (y : ysection) (mat mf : Z) : text := match pr_any skind_of y mat mf with Val t => t | _ => [] end.
Definition fend_of (mat : Z) : text := match pr_FEND mat with Val t => t | _ => [] end.
Definition begin_tape : text := pr_tpid (mktpid (blanks 66) 0) 0 0 0.
Definition end_mat : text := pr_sdiv MEND. Definition end_tape : text := pr_sdiv TEND.
Definition typed (t : text) := rd_ytape skind_of lib_class (mkst t 0).
(** the typed reader does not compare the MAT numbers of the files of a material *)
Definition two_mats : text := begin_tape ++ sec_of ex_452 9228 1 ++ fend_of 9228 ++ sec_of (ex_3 1) 9437 3 ++ fend_of 9437 ++ end_mat ++ end_tape.
Theorem C62_mixed_refuted : exists yt s T s', typed two_mats = Ok yt s /\ index_tape two_mats = Ok T s'
  /\ ytape_has yt 9437 = false /\ tape_has T 9437 = true
  /\ (exists m, ytape_material yt 9228 = [m] /\ ymat_hasMFMT m 3 1 = true) /\ (exists x, tape_material T 9228 = Val [x] /\ mat_hasMFMT x 3 1 = false).
Proof. do 4 eexists. split; [vm_compute; reflexivity|]. split; [vm_compute; reflexivity|]. repeat split; try (eexists; split; [vm_compute; reflexivity|vm_compute; reflexivity]); vm_compute; reflexivity. Qed.
(** MF of a HEAD record is not compared with the file by sixteen classes: a section of
    file 10 whose HEAD says file 9 becomes a section of file 9, if its other lines do *)
Definition ex_9 (mt : Z) : ysection := existT _ K9 (mksect 92235 r_pi mt (mklevels 2 [xtab1 92236 0])).
Definition other_head : text :=
  pr_sdiv (mksdiv (mkcont (of_int 92235) r_pi 2 0 1 0) 9228 10 103) ++ skipn 81 (sec_of (ex_9 103) 9228 9).
Definition stray_head : text := begin_tape ++ sec_of (ex_9 102) 9228 9 ++ other_head ++ fend_of 9228 ++ end_mat ++ end_tape.
Theorem C62_head_refuted : exists yt s T s', typed stray_head = Ok yt s /\ index_tape stray_head = Ok T s'
  /\ (exists m, ytape_material yt 9228 = [m] /\ ymat_hasMFMT m 9 103 = true /\ ymat_hasMFMT m 10 103 = false)
  /\ (exists x, tape_material T 9228 = Val [x] /\ mat_hasMFMT x 9 103 = false /\ mat_hasMFMT x 10 103 = true).
Proof.
  do 4 eexists. split; [vm_compute; reflexivity|]. split; [vm_compute; reflexivity|].
  split; (eexists; split; [vm_compute; reflexivity|split; vm_compute; reflexivity]).
Qed.
(** a repeated MEND is a material without number and without files for the typed reader; the
    tree ignores it *)
Definition two_mends : text := begin_tape ++ sec_of (ex_3 1) 9228 3 ++ fend_of 9228 ++ end_mat ++ end_mat ++ end_tape.
Theorem C62_mend_refuted : exists yt s T s', typed two_mends = Ok yt s /\ index_tape two_mends = Ok T s'
  /\ ytape_material yt 0 = [mkymat 0 []] /\ tape_has T 0 = false.
Proof. do 4 eexists. split; [vm_compute; reflexivity|]. split; [vm_compute; reflexivity|]. split; vm_compute; reflexivity. Qed.
(** a repeated SEND or FEND is an error for the typed reader; the tree ignores it *)
Definition send_of (mat mf : Z) : text := pr_sdiv (mksdiv zero_cont mat mf 0).
Definition two_sends : text := begin_tape ++ sec_of (ex_3 1) 9228 3 ++ send_of 9228 3 ++ fend_of 9228 ++ end_mat ++ end_tape.
Definition two_fends : text := begin_tape ++ sec_of (ex_3 1) 9228 3 ++ fend_of 9228 ++ fend_of 9228 ++ end_mat ++ end_tape.
Theorem C62_send_refuted : (exists s T s', typed two_sends = Err EStd s /\ index_tape two_sends = Ok T s' /\ tape_has T 9228 = true)
  /\ (exists s T s', typed two_fends = Err EStd s /\ index_tape two_fends = Ok T s' /\ tape_has T 9228 = true).
Proof. split; do 3 eexists; (split; [vm_compute; reflexivity|]; split; [vm_compute; reflexivity|]; vm_compute; reflexivity). Qed.
(** a missing FEND or MEND: the tree sees the next file or material, the typed reader does not
    accept the tape *)
Definition no_fend : text := begin_tape ++ sec_of ex_452 9228 1 ++ sec_of (ex_3 1) 9228 3 ++ fend_of 9228 ++ end_mat ++ end_tape.
Theorem C62_missing_refuted : exists s T s' x, typed no_fend = Err EStd s /\ index_tape no_fend = Ok T s'
  /\ tape_material T 9228 = Val [x] /\ mat_hasMFMT x 1 452 = true /\ mat_hasMFMT x 3 1 = true.
Proof. do 4 eexists. split; [vm_compute; reflexivity|]. split; [vm_compute; reflexivity|]. repeat split; vm_compute; reflexivity. Qed.
