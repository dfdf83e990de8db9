(** PropDescr.v -- C67: the description section by name.  Every quantity that an accessor of section 1/451 shows is the one given to the
    constructor, the one in its columns of the text that was read, and the one in its columns of the text that is printed. *)
From Coq Require Import ZifyBool ZifyNat QArith.
From Verif Require Import Base Disco DiscoProofs Records RecordProofs RecordRT RecordSound Layout RealRound RealProofs Spec Normal LineFacts Sections SecSpec Codec SectionProofs
  SecKit CodecKit PropRecords PropRecords2 PropRecords3 ExKit Sec6Proofs PropTree PropHeads PropInner PropNamed PropTyped3 PropTree2 Sec451 Sec451Spec Sec451Proofs PropSec451 Make Descr.
Open Scope Z_scope.

(** what the section says, field by field *)
Definition tells451 (b : descr) (lrp lfi nlib nmod : Z) (elis sta : real) (lis liso nfor : Z) (awi emax : real) (lrel nsub nver : Z) (temp rtol : real) (ldrv : Z) : Prop :=
  LRP b = lrp /\ LFI b = lfi /\ NLIB b = nlib /\ NMOD b = nmod /\ ELIS b = elis /\ STA b = sta /\ LIS b = lis /\ LISO b = liso /\ NFOR b = nfor
  /\ AWI b = awi /\ EMAX b = emax /\ LREL b = lrel /\ NSUB b = nsub /\ NVER b = nver /\ TEMP b = temp /\ RTOL b = rtol /\ LDRV b = ldrv.
(** a description line: columns 1 to 66, blanks where the line is shorter *)
Definition text_line (l t : text) : Prop := t = firstn 66 l ++ blanks (66 - length l).
(** a directory line: MF in columns 23-33, MT, NC and MOD in the next columns of width 11 *)
Definition dir_line (l : text) (d : dir) : Prop :=
  read_int (col 0 33 l) = Some (dmf d) /\ read_int (col 33 11 l) = Some (dmt d) /\ read_int (col 44 11 l) = Some (dnc d) /\ read_int (col 55 11 l) = Some (dmod d).
(** the lines of a section after its HEAD record, as the manual gives them:
    ELIS STA LIS LISO 0 NFOR / AWI EMAX LREL 0 NSUB NVER / TEMP RTOL LDRV 0 NWD NXC / NWD lines of text / NXC lines of the directory *)
Definition laid_out (mat : Z) (t : text) (elis sta : real) (lis liso x1 nfor : Z) (awi emax : real) (lrel x2 nsub nver : Z) (temp rtol : real) (ldrv x3 nwd nxc : Z)
    (ls : list text) (ds : list dir) : Prop :=
  record_at 0 mat 1 451 t elis sta lis liso x1 nfor /\ record_at 1 mat 1 451 t awi emax lrel x2 nsub nver /\ record_at 2 mat 1 451 t temp rtol ldrv x3 nwd nxc
  /\ (forall k l, nth_error ls k = Some l -> text_line (nth_line t (3 + k)) l /\ carries mat 1 451 (nth_line t (3 + k)))
  /\ (forall k d, nth_error ds k = Some d -> dir_line (nth_line t (3 + length ls + k)) d /\ carries mat 1 451 (nth_line t (3 + length ls + k))).

Lemma one_line {A} (rd : Z -> Z -> Z -> M A) mat mf mt s x s' : consumed (carries mat mf mt) s s' -> line s' = line s + 1 -> rd mat mf mt s = Ok x s' ->
  buf s' = drop_lines 1 (buf s) /\ carries mat mf mt (nth_line (buf s) 0).
Proof. intros (n & B1 & B2 & B3) L _. assert (n = 1%nat) by lia. subst n. split; [assumption|apply B3; lia]. Qed.
Lemma rd_text_next mat mf mt s c s' : rd_text mat mf mt s = Ok c s' -> text_line (nth_line (buf s) 0) c /\ buf s' = drop_lines 1 (buf s) /\ carries mat mf mt (nth_line (buf s) 0).
Proof.
  intros R. split; [exact (proj2 (C42_dir_text_columns mat mf mt s s') _ R)|].
  refine (one_line rd_text mat mf mt s c s' (proj1 (proj2 (C09_record_reads_consume_own_lines mat mf mt)) _ _ _ R) _ R).
  apply on_err_ok in R. apply bind_ok in R as (c0 & s1 & H1 & R). apply bind_ok in R as (u & s2 & H2 & R).
  destruct (inl_any s) as (l & b & _ & I0). destruct (rd_chars_inl _ _ _ _ _ _ _ I0 H1) as (_ & I1 & L1).
  destruct (verify_cols _ _ _ _ _ _ _ _ I1 H2) as (_ & _ & L2). inversion R; subst. lia.
Qed.
Lemma rd_dir_next mat mf mt s c s' : rd_dir mat mf mt s = Ok c s' -> dir_line (nth_line (buf s) 0) c /\ buf s' = drop_lines 1 (buf s) /\ carries mat mf mt (nth_line (buf s) 0).
Proof.
  intros R. split; [exact (proj1 (C42_dir_text_columns mat mf mt s s') _ R)|].
  refine (one_line rd_dir mat mf mt s c s' (proj1 (proj2 (proj2 (C09_record_reads_consume_own_lines mat mf mt))) _ _ _ R) _ R).
  apply on_err_ok in R. apply bind_ok in R as (a1 & s1 & H1 & R). apply bind_ok in R as (a2 & s2 & H2 & R). apply bind_ok in R as (a3 & s3 & H3 & R).
  apply bind_ok in R as (a4 & s4 & H4 & R). apply bind_ok in R as (u & s5 & H5 & R).
  destruct (inl_any s) as (l & b & _ & I0). destruct (rd_int_inl _ _ _ _ _ _ _ I0 H1) as (_ & I1 & L1). destruct (rd_int_inl _ _ _ _ _ _ _ I1 H2) as (_ & I2 & L2).
  destruct (rd_int_inl _ _ _ _ _ _ _ I2 H3) as (_ & I3 & L3). destruct (rd_int_inl _ _ _ _ _ _ _ I3 H4) as (_ & I4 & L4).
  destruct (verify_cols _ _ _ _ _ _ _ _ I4 H5) as (_ & _ & L5). inversion R; subst. lia.
Qed.
Lemma rd_n_lines {A} (rd : M A) (P : text -> A -> Prop) :
  (forall s x s', rd s = Ok x s' -> P (nth_line (buf s) 0) x /\ buf s' = drop_lines 1 (buf s)) ->
  forall n s l s', rd_n rd n s = Ok l s' -> length l = n /\ (forall k x, nth_error l k = Some x -> P (nth_line (buf s) k) x) /\ buf s' = drop_lines n (buf s).
Proof.
  intros H. induction n as [|n IH]; intros s l s' E; cbn [rd_n] in E.
  { injection E as <- <-. split; [reflexivity|]. split; [intros [|k] x K; discriminate|reflexivity]. }
  apply bind_ok in E as (y & s1 & E1 & E). apply bind_ok in E as (ys & s2 & E2 & E). injection E as <- <-.
  destruct (H _ _ _ E1) as (P1 & B1). destruct (IH _ _ _ E2) as (L & Q & B2). split; [cbn; congruence|]. split.
  - intros [|k] x K; cbn [nth_error] in K.
    + injection K as <-. exact P1.
    + change (Datatypes.S k) with (1 + k)%nat. rewrite <- drop_lines_nth. rewrite <- B1. now apply Q.
  - rewrite B2, B1. reflexivity.
Qed.

(** *** reading *)
Lemma sec_head_state chk wmt h mat mf s r s' : sec_head chk wmt h mat mf s = Ok r s' -> s' = s.
Proof.
  unfold sec_head. intros H. apply bind_ok in H as (z & s1 & E & H). assert (s1 = s) by (unfold lift in E; destruct (head_za32 h); now inversion E). subst s1.
  repeat (apply bind_ok in H as (? & ? & K & H); apply require_ok in K as (_ & ->)). now injection H as _ <-.
Qed.
Lemma read_layout h mat s x s' : rd_section sec_451 h mat s = Ok x s' -> let b := s_body x in
  laid_out mat (buf s) (c1 (d_c0 b)) (c2 (d_c0 b)) (l1 (d_c0 b)) (l2 (d_c0 b)) (n1 (d_c0 b)) (n2 (d_c0 b)) (c1 (d_c1 b)) (c2 (d_c1 b)) (l1 (d_c1 b)) (l2 (d_c1 b)) (n1 (d_c1 b)) (n2 (d_c1 b))
     (c1 (d_c2 b)) (c2 (d_c2 b)) (l1 (d_c2 b)) (l2 (d_c2 b)) (n1 (d_c2 b)) (n2 (d_c2 b)) (d_text b) (d_index b)
  /\ (d_lrp b = i32 (l1 (sbase h)) /\ d_lfi b = i32 (l2 (sbase h)) /\ d_nlib b = i32 (n1 (sbase h)) /\ d_nmod b = i32 (n2 (sbase h)))
  /\ len (d_text b) = i32 (n1 (d_c2 b)) /\ len (d_index b) = i32 (n2 (d_c2 b)).
Proof.
  intros R b. unfold rd_section in R. apply bind_ok in R as ([za awr] & s0 & H0 & R). apply bind_ok in R as (b' & s9 & H9 & R). apply bind_ok in R as (u & s10 & _ & R).
  injection R as <- <-. cbn [s_body] in b. subst b.
  assert (S0 : s0 = s) by (revert H0; apply sec_head_state). subst s0. clear H0.
  change (k_rmat sec_451 h mat) with mat in H9. change (k_rmt sec_451 h) with 451 in H9. cbn [sec_451 k_read k_mf] in H9. unfold rd_descr in H9.
  apply bind_ok in H9 as (c0 & s1 & E0 & H9). apply bind_ok in H9 as (c1' & s2 & E1 & H9). apply bind_ok in H9 as (c2' & s3 & E2 & H9).
  apply bind_ok in H9 as (u1 & s4 & E3 & H9). apply require_ok in E3 as (N1 & ->). apply bind_ok in H9 as (u2 & s5 & E4 & H9). apply require_ok in E4 as (N2 & ->).
  apply bind_ok in H9 as (t & s6 & E5 & H9). apply bind_ok in H9 as (d & s7 & E6 & H9). injection H9 as <- <-.
  unfold rd_sequence in E5, E6. cbn zeta in E5, E6.
  apply bind_ok in E5 as (u3 & s8 & E5' & E5). apply require_ok in E5' as (N3 & ->). apply bind_ok in E6 as (u4 & s11 & E6' & E6). apply require_ok in E6' as (N4 & ->).
  pose proof (rd_begins _ _ _ _ _ _ E0) as R0. pose proof (rd_begins _ _ _ _ _ _ E1) as R1. pose proof (rd_begins _ _ _ _ _ _ E2) as R2.
  destruct (rd_cont_next _ _ _ _ _ _ E0) as (_ & D0). destruct (rd_cont_next _ _ _ _ _ _ E1) as (_ & D1). destruct (rd_cont_next _ _ _ _ _ _ E2) as (_ & D2).
  destruct (rd_n_lines _ (fun l x => text_line l x /\ carries mat 1 451 l) (fun s x s' E => let (a, bc) := rd_text_next _ _ _ _ _ _ E in let (b, c) := bc in conj (conj a c) b) _ _ _ _ E5) as (L5 & Q5 & B5).
  destruct (rd_n_lines _ (fun l x => dir_line l x /\ carries mat 1 451 l) (fun s x s' E => let (a, bc) := rd_dir_next _ _ _ _ _ _ E in let (b, c) := bc in conj (conj a c) b) _ _ _ _ E6) as (L6 & Q6 & B6).
  split.
  { unfold laid_out. cbn [d_c0 d_c1 d_c2 d_text d_index]. split; [exact R0|]. unfold begins in R1, R2. rewrite D0 in R1. rewrite D1, D0 in R2.
    rewrite !drop_lines_nth in R1, R2. split; [exact R1|]. split; [exact R2|].
    assert (D3 : buf s3 = drop_lines 3 (buf s)) by (rewrite D2, D1, D0; reflexivity). split.
    - intros k l K. generalize (Q5 k l K). rewrite D3, drop_lines_nth. tauto.
    - intros k l K. generalize (Q6 k l K). rewrite B5, D3, !drop_lines_nth, <- L5. rewrite Nat.add_assoc. tauto. }
  split; [repeat split|]. unfold len. cbn [d_text d_index d_c2]. rewrite L5, L6.
  generalize (i32_range (n1 c2')) (i32_range (n2 c2')). unfold int32. intros A B. rewrite !Z2Nat.id by lia. split; reflexivity.
Qed.
Theorem C67_read : forall h mat s x s', rd_section sec_451 h mat s = Ok x s' -> let b := s_body x in
  exists lis liso x1 nfor lrel x2 nsub nver ldrv x3 nwd nxc,
  laid_out mat (buf s) (ELIS b) (STA b) lis liso x1 nfor (AWI b) (EMAX b) lrel x2 nsub nver (TEMP b) (RTOL b) ldrv x3 nwd nxc (d_text b) (index b)
  /\ tells451 b (i32 (l1 (sbase h))) (i32 (l2 (sbase h))) (i32 (n1 (sbase h))) (i32 (n2 (sbase h)))
       (ELIS b) (STA b) (i32 lis) (i32 liso) (i32 nfor) (AWI b) (EMAX b) (i32 lrel) (i32 nsub) (i32 nver) (TEMP b) (RTOL b) (i32 ldrv)
  /\ len (d_text b) = i32 nwd /\ len (index b) = i32 nxc /\ NWD b = len (d_text b) /\ NXC b = len (index b).
Proof.
  intros h mat s x s' R b. destruct (read_layout _ _ _ _ _ R) as (Y & (A1 & A2 & A3 & A4) & L1 & L2). fold b in Y, A1, A2, A3, A4, L1, L2.
  exists (l1 (d_c0 b)), (l2 (d_c0 b)), (n1 (d_c0 b)), (n2 (d_c0 b)), (l1 (d_c1 b)), (l2 (d_c1 b)), (n1 (d_c1 b)), (n2 (d_c1 b)), (l1 (d_c2 b)), (l2 (d_c2 b)), (n1 (d_c2 b)), (n2 (d_c2 b)).
  split; [exact Y|]. split; [now repeat split|]. split; [exact L1|]. split; [exact L2|]. unfold NWD, NXC, index. unfold len in *. rewrite L1, L2, !i32_i32. split; reflexivity.
Qed.

(** *** construction, and the text of what is constructed *)
Theorem C67_constructed : forall za awr lrp lfi nlib nmod elis sta lis liso nfor awi emax lrel nsub nver temp ldrv t idx rtol,
  0 < za -> real_le rzero awr -> Forall int32 [lrp; lfi; nlib; nmod; lis; liso; nfor; lrel; nsub; nver; ldrv] ->
  exists x, make451 za awr lrp lfi nlib nmod elis sta lis liso nfor awi emax lrel nsub nver temp ldrv t idx rtol = Val x
  /\ s_za x = za /\ s_awr x = awr /\ s_mt x = 451
  /\ tells451 (s_body x) lrp lfi nlib nmod elis sta lis liso nfor awi emax lrel nsub nver temp rtol ldrv /\ index (s_body x) = idx
  /\ (za < 10 ^ 7 -> idx <> [] -> len idx < 2 ^ 31 -> len (d_text (s_body x)) < 2 ^ 31 -> good_ids x -> rep_descr (s_body x) -> section_survives sec_451 x).
Proof.
  intros until rtol. intros Hz Ha F. unfold make451, section_of. rewrite ids_ok by (assumption || lia). cbn [obind s_za s_awr s_mt]. eexists. split; [reflexivity|].
  cbn [s_za s_awr s_mt s_body]. do 3 (split; [reflexivity|]). repeat (apply Forall_cons_iff in F as (? & F)). split.
  { unfold tells451, make_descr, LRP, LFI, NLIB, NMOD, ELIS, STA, LIS, LISO, NFOR, AWI, EMAX, LREL, NSUB, NVER, TEMP, RTOL, LDRV. cbn. rewrite !i32_id by assumption. repeat split. }
  split; [reflexivity|]. intros Hza Ni Li Lt G R. eapply section_again; [exact C36_section|exact G| |exact R|].
  - exact (conj eq_refl Logic.I).
  - now apply C36_constructor.
Qed.

Theorem C67_printed : forall za awr lrp lfi nlib nmod elis sta lis liso nfor awi emax lrel nsub nver temp ldrv t idx rtol x mat,
  make451 za awr lrp lfi nlib nmod elis sta lis liso nfor awi emax lrel nsub nver temp ldrv t idx rtol = Val x ->
  Forall int32 [lrp; lfi; nlib; nmod] -> idx <> [] -> len idx < 2 ^ 31 -> len (split_lines t) < 2 ^ 31 -> good_ids x -> rep_descr (s_body x) -> 0 < mat < 10000 ->
  exists text, pr_section sec_451 x mat 1 = Val text /\ begins mat 1 451 text (of_int za) awr lrp lfi nlib nmod
  /\ laid_out mat (drop_lines 1 text) elis sta lis liso 0 nfor awi emax lrel 0 nsub nver temp rtol ldrv 0 (len (split_lines t)) (len idx) (split_lines t) idx.
Proof.
  intros until mat. intros E F Ni Li Lt G R M. unfold make451, section_of in E. apply obind_val in E as (y & Ey & E). cbn [obind] in E. injection E as <-.
  unfold make_section in Ey. destruct (_ || _)%bool; [discriminate|]. injection Ey as <-. cbn [s_za s_awr s_mt s_body] in *.
  pose proof (proj1 (proj1 (Forall_cons_iff _ _ _) F)) as F1. apply Forall_cons_iff in F as (_ & F). pose proof (proj1 (proj1 (Forall_cons_iff _ _ _) F)) as F2. apply Forall_cons_iff in F as (_ & F).
  pose proof (proj1 (proj1 (Forall_cons_iff _ _ _) F)) as F3. apply Forall_cons_iff in F as (_ & F). apply Forall_cons_iff in F as (F4 & _).
  set (b := make_descr lrp lfi nlib nmod elis sta lis liso nfor awi emax lrel nsub nver temp rtol ldrv t idx) in *.
  assert (V : inv_descr b) by now apply C36_constructor.
  destruct (section_again sec_451 rep_descr inv_descr (mksect za awr 451 b) C36_section G (conj eq_refl Logic.I) R V mat M) as (text & P & Q).
  exists text. split; [exact P|]. destruct (Q [] 0) as (ln' & Q'). rewrite app_nil_r in Q'. unfold parse_section in Q'. apply bind_ok in Q' as (h & s1 & H1 & Q').
  destruct (sdiv_here _ _ _ _ H1) as (_ & B1). destruct (read_layout _ _ _ _ _ Q') as (Y & _). rewrite B1 in Y. cbn [s_body] in Y.
  destruct (proj1 (C57_file1 mat) (mksect za awr 451 b) M G ltac:(cbn; lia)) as (t' & P' & C' & K'); try (apply int32_cols; assumption).
  cbn [k_mf sec_451] in P'. cbn [k_mf sec_451] in P. rewrite P in P'. injection P' as <-. split; [split; [exact C'|exact K']|].
  assert (I1 : i32 (Z.of_nat (length (split_lines t))) = len (split_lines t)) by (unfold len in *; apply RecordRT.i32_small; lia).
  assert (I2 : i32 (Z.of_nat (length idx)) = len idx) by (unfold len in *; apply RecordRT.i32_small; lia).
  rewrite <- I1 at 1. rewrite <- I2 at 1. exact Y.
Qed.

(** *** the two answers *)
(** the manual: LFI = 1 for a material that fissions, 0 otherwise *)
Theorem C67_fissile : forall b, isFissile b = true <-> LFI b <> 0.
Proof. intros b. unfold isFissile. lia. Qed.
(** the manual: STA = 0 for a stable target, STA = 1 for an unstable one.  isStable() answers the other way round, for every section *)
Theorem C67_stable_refuted : forall b, (isStable b = true <-> ~ (valQ (STA b) == 0)%Q) /\ (STA b = rzero -> isStable b = false) /\ (STA b = of_int 1 -> isStable b = true).
Proof.
  intros b. unfold isStable, ris0. split; [|split; intros ->; reflexivity].
  enough (Z0 : (valQ (STA b) == 0)%Q <-> rman (STA b) = 0) by (rewrite Z0; lia). unfold valQ, rsig. split.
  - intros H. apply Qmult_integral in H. destruct H as [H|H]; [|pose proof (bp_pos 2 (rexp (STA b)) ltac:(lia)) as K; rewrite H in K; discriminate K].
    unfold Qeq in H. cbn in H. destruct (rneg (STA b)); lia.
  - intros ->. destruct (rneg (STA b)); reflexivity.
Qed.

(** *** a concrete section *)
Definition x451_text : text := repeat "A"%char 66 ++ LF :: repeat "B"%char 66 ++ [LF].
Definition x451_idx : list dir := [mkdir 1 451 6 0; mkdir 3 2 40 1].
Example C67_example : exists x, make451 92235 r_pi 1 1 0 5 r_tiny r_one 2 1 6 r_one r_pi 8 10 7 r_pi 0 x451_text x451_idx r_tiny = Val x
  /\ tells451 (s_body x) 1 1 0 5 r_tiny r_one 2 1 6 r_one r_pi 8 10 7 r_pi r_tiny 0 /\ good_ids x /\ rep_descr (s_body x) /\ len (d_text (s_body x)) = 2
  /\ isFissile (s_body x) = true /\ isStable (s_body x) = true
  /\ exists t, pr_section sec_451 x 9228 1 = Val t /\ begins 9228 1 451 t (of_int 92235) r_pi 1 1 0 5
     /\ laid_out 9228 (drop_lines 1 t) r_tiny r_one 2 1 0 6 r_one r_pi 8 0 10 7 r_pi r_tiny 0 0 2 2 (split_lines x451_text) x451_idx.
Proof.
  eexists. split; [reflexivity|]. cbn [s_body].
  assert (G : good_ids (mksect 92235 r_pi 451 (make_descr 1 1 0 5 r_tiny r_one 2 1 6 r_one r_pi 8 10 7 r_pi r_tiny 0 x451_text x451_idx))).
  { xt. }
  assert (R : rep_descr (make_descr 1 1 0 5 r_tiny r_one 2 1 6 r_one r_pi 8 10 7 r_pi r_tiny 0 x451_text x451_idx)).
  { unfold rep_descr, make_descr. cbn [d_c0 d_c1 d_c2 d_text d_index]. change (split_lines x451_text) with [repeat "A"%char 66; repeat "B"%char 66]. unfold x451_idx.
    split; [xt|]. split; [xt|]. split; [xt|]. split.
    - apply Forall_cons; [split; [reflexivity|now apply no_lf_ok]|]. apply Forall_cons; [split; [reflexivity|now apply no_lf_ok]|]. apply Forall_nil.
    - unfold rep_dir. cbn [dmf dmt dnc dmod]. xt. }
  split; [repeat split|]. split; [exact G|]. split; [exact R|]. split; [reflexivity|]. split; [reflexivity|]. split; [reflexivity|].
  apply (C67_printed 92235 r_pi 1 1 0 5 r_tiny r_one 2 1 6 r_one r_pi 8 10 7 r_pi 0 x451_text x451_idx r_tiny); try assumption; try reflexivity; try discriminate; try lia.
  repeat constructor; unfold int32; lia.
Qed.
