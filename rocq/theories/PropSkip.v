(** PropSkip.v -- C33: a file 8 that begins with a section other than 454, 457 and 459. *)
From Verif Require Import Base Disco DiscoProofs Records PropRecords RecordProofs RecordRT Spec LineFacts Tree TreeSpec TreeProofs TreeGrammar PropTree PropTree2
  Sections SecSpec Codec Typed TypedSpec TypedProofs PropTyped PropTyped2 PropTyped3 Classes PropClasses PropAgree2.
Open Scope Z_scope.

(** a section that is skipped: its HEAD is in file 8, the lines that follow have the MT of the
    HEAD, and its last line another one *)
Definition skipped_section (s : sec_src) : Prop :=
  head_line (x_mat s) 8 (x_mt s) (x_head s) /\ Forall (fun l => exists mat mf, carries mat mf (x_mt s) l) (x_body s)
  /\ (exists mat mf mt, carries mat mf mt (x_last s) /\ mt <> x_mt s) /\ Forall noLF (sec_lines s).
(** what is left of it after the HEAD *)
Definition tail_lines (s : sec_src) : list text := x_body s ++ [x_last s].

Lemma skip_mt_lines mt ls : Forall noLF ls -> Forall (fun l => exists mat mf, carries mat mf mt l) ls ->
  forall l m f t r ln fuel, noLF l -> carries m f t l -> t <> mt -> (length ls + 1 < fuel)%nat ->
  skip_mt mt fuel mt (mkst (lines_text ls ++ l ++ LF :: r) ln) = Ok tt (mkst r (ln + Z.of_nat (length ls) + 1)).
Proof.
  induction ls as [|a ls IH]; intros Nl Cl l m f t r ln fuel N C Hf Hfu.
  - destruct fuel as [|fu]; [cbn in Hfu; lia|]. cbn [skip_mt]. rewrite Z.eqb_refl. unfold bind. cbn [lines_text flat_map app].
    rewrite (skip_fwd _ l r ln m f t (next_line_app l r N) C). destruct fu as [|fu]; [cbn in Hfu; lia|]. cbn [skip_mt].
    replace (t =? mt) with false by lia. unfold ret. cbn. do 2 f_equal. lia.
  - destruct fuel as [|fu]; [cbn in Hfu; lia|]. cbn [skip_mt]. rewrite Z.eqb_refl. unfold bind. rewrite lines_cons.
    inversion Cl as [|? ? (mat & mf & Ca) Cl']; subst. inversion Nl; subst.
    rewrite (skip_fwd _ a _ ln mat mf mt (next_line_app a _ H1) Ca). rewrite (IH H2 Cl' l m f t r (ln + 1) fu N C Hf) by (cbn [length] in Hfu; lia).
    do 2 f_equal. cbn [length]. lia.
Qed.
Lemma lines_le ls : (length ls <= length (lines_text ls))%nat.
Proof. induction ls as [|a ls IH]; [cbn; lia|]. rewrite lines_cons', app_length. cbn [length]. lia. Qed.
Lemma head_line_inv mat mf mt l d : head_line mat mf mt l -> division_line l d -> smat d = mat /\ smf d = mf /\ smt d = mt.
Proof.
  intros (_ & _ & _ & d' & (_ & (A & B & C) & _) & <- & <- & <-) (_ & (A' & B' & C') & _). repeat split; congruence.
Qed.

Section Classes.
  Context {code : Type} {body : code -> Type} (kind : forall c, skind (body c)) (class_of : Z -> Z -> option code).
  (** the lines of the file after the HEAD of its first section *)
  Definition file8_lines (s : sec_src) (secs : list sec_src) (last : text) : list text :=
    tail_lines s ++ flat_map sec_lines secs ++ [last].
  Lemma file8_more s s2 secs l rest : lines_text (file8_lines s (s2 :: secs) l) ++ rest
    = lines_text (x_body s) ++ x_last s ++ LF :: x_head s2 ++ LF :: (lines_text (file8_lines s2 secs l) ++ rest).
  Proof.
    unfold file8_lines, tail_lines, sec_lines. cbn [flat_map]. rewrite <- app_assoc, lines_app, <- app_assoc. f_equal.
    cbn [app]. rewrite lines_cons. f_equal. f_equal. rewrite <- !app_assoc. now rewrite lines_cons.
  Qed.
  Lemma skip_8_lines l dl : noLF l -> division_line l dl -> smf dl <> 8 -> forall secs s d, Forall skipped_section (s :: secs) ->
    division_line (x_head s) d -> forall fuel rest ln, (length secs + 2 <= fuel)%nat ->
    skip_8 fuel d (mkst (lines_text (file8_lines s secs l) ++ rest) ln)
    = Ok dl (mkst rest (ln + Z.of_nat (length (file8_lines s secs l)))).
  Proof.
    intros Nl Dl Hl. induction secs as [|s2 secs IH]; intros s d Fs Ds fuel rest ln Hf;
      (inversion Fs as [|? ? (Hh & Hb & (m & f & t & Ct & Nt) & Nn) Fs']; subst;
       destruct (head_line_inv _ _ _ _ _ Hh Ds) as (_ & E8 & Emt);
       assert (Nb : Forall noLF (x_body s) /\ noLF (x_last s)) by
         (unfold sec_lines in Nn; inversion Nn as [|? ? _ Nn']; apply Forall_app in Nn'; destruct Nn' as (Nb & Nx); inversion Nx; auto);
       destruct Nb as (Nb & Nx);
       destruct fuel as [|fu]; [lia|]; cbn [skip_8]; rewrite E8; change (8 =? 8) with true; cbv iota; unfold get_pos; unfold bind at 1; cbn [buf]).
    - unfold file8_lines, tail_lines. cbn [flat_map app]. rewrite !lines_app, <- !app_assoc. cbn [lines_text flat_map app]. rewrite <- !app_assoc. cbn [app].
      unfold bind at 1. rewrite Emt, (skip_mt_lines _ _ Nb Hb _ m f t _ ln _ Nx Ct Nt).
      2:{ rewrite !app_length. cbn [length]. pose proof (lines_le (x_body s)). lia. }
      unfold bind at 1. rewrite (rd_line _ _ _ _ Nl Dl). destruct fu as [|fu]; [cbn in Hf; lia|]. cbn [skip_8].
      replace (smf dl =? 8) with false by lia. unfold ret. f_equal. f_equal. rewrite !app_length. cbn [length]. lia.
    - assert (S2 := Forall_inv Fs'). destruct S2 as (Hh2 & _ & _ & Nn2). assert (K2 := Hh2). destruct K2 as (_ & _ & _ & d2 & D2 & _).
      assert (Nh2 : noLF (x_head s2)) by (inversion Nn2; assumption).
      rewrite file8_more. unfold bind at 1. rewrite Emt, (skip_mt_lines _ _ Nb Hb _ m f t _ ln _ Nx Ct Nt).
      2:{ rewrite !app_length. cbn [length]. pose proof (lines_le (x_body s)). lia. }
      unfold bind at 1. rewrite (rd_line _ _ _ _ Nh2 D2).
      rewrite (IH s2 d2 Fs' D2 fu rest (ln + Z.of_nat (length (x_body s)) + 1 + 1)) by (cbn in Hf; lia). f_equal. f_equal.
      unfold file8_lines, tail_lines, sec_lines. cbn [flat_map length]. rewrite !app_length. cbn [length]. rewrite !app_length. cbn [length]. lia.
  Qed.

  (** ** C33 *)
  (** A file 8 whose first section is not 454, 457 or 459, made of any sections (454, 457 and 459 among
      them), is read as a file without sections, up to and with its FEND line; a HEAD of
      another file, a SEND of another file, a MEND or a TEND line in place of the FEND is rejected,
      but a line that is none of these (MT = 0 and a non-zero field, or MT without MF or MAT) is
      taken for the FEND. *)
  Theorem C33_mf8_skipped : forall s secs l d rest ln, Forall skipped_section (s :: secs) -> division_line (x_head s) d ->
    x_mt s <> 454 -> x_mt s <> 457 -> x_mt s <> 459 -> noLF l ->
    (fend_line l -> rd_yfile kind class_of 8 d (mkst (lines_text (file8_lines s secs l) ++ rest) ln)
                    = Ok (mkyfile 8 []) (mkst rest (ln + Z.of_nat (length (file8_lines s secs l)))))
    /\ ((exists mat mf mt, head_line mat mf mt l /\ mf <> 8) \/ (exists d', division_line l d' /\ smf d' <> 8 /\ TreeSpec.send_line l) \/ mend_line l \/ tend_line l ->
       exists s', rd_yfile kind class_of 8 d (mkst (lines_text (file8_lines s secs l) ++ rest) ln) = Err EStd s')
    /\ (forall d', division_line l d' -> smf d' <> 8 ->
       smt d' = 0 /\ n2 (sbase d') <> 0 \/ smt d' <> 0 /\ (smf d' = 0 \/ smat d' = 0) ->
       rd_yfile kind class_of 8 d (mkst (lines_text (file8_lines s secs l) ++ rest) ln)
       = Ok (mkyfile 8 []) (mkst rest (ln + Z.of_nat (length (file8_lines s secs l))))).
  Proof.
    intros s secs l d rest ln Fs Ds H1 H2 H3 Nl. assert (Hs := Forall_inv Fs). destruct (head_line_inv _ _ _ _ _ (proj1 Hs) Ds) as (_ & _ & Emt).
    assert (G : forall dl, division_line l dl -> smf dl <> 8 ->
      rd_yfile kind class_of 8 d (mkst (lines_text (file8_lines s secs l) ++ rest) ln)
      = (if verify_fend dl then Ok (mkyfile 8 []) (mkst rest (ln + Z.of_nat (length (file8_lines s secs l))))
         else Err EStd (mkst rest (ln + Z.of_nat (length (file8_lines s secs l)))))).
    { intros dl Dl Hl. unfold rd_yfile. change (8 =? 30) with false. change (8 =? 8) with true. cbv iota. rewrite Emt.
      replace (true && negb ((x_mt s =? 454) || (x_mt s =? 457) || (x_mt s =? 459))) with true by lia.
      unfold on_err, get_pos, bind. cbn [buf]. rewrite (skip_8_lines l dl Nl Dl Hl secs s d Fs Ds).
      2:{ rewrite app_length. pose proof (lines_le (file8_lines s secs l)) as L. unfold file8_lines in L at 1. rewrite !app_length in L.
          enough (length secs <= length (flat_map sec_lines secs))%nat by lia. clear. induction secs as [|a r IH]; [cbn; lia|].
          cbn [flat_map]. rewrite app_length. unfold sec_lines at 1. cbn [length]. lia. }
      unfold require. destruct (verify_fend dl); reflexivity. }
    split; [|split].
    - intros (dl & Dl & A1 & A2 & A3 & A4 & A5 & A6 & A7 & A8 & A9). rewrite (G dl Dl) by lia.
      replace (verify_fend dl) with true; [reflexivity|]. unfold verify_fend, is_fend, is_fend_permissive, is_send_permissive, base_is0, ris0.
      rewrite A1, A2. lia.
    - intros K. assert (X : exists dl, division_line l dl /\ smf dl <> 8 /\ verify_fend dl = false).
      { destruct K as [(mat & mf & mt & (B1 & B2 & B3 & dl & Dl & C1 & C2 & C3) & Hm)|[(d' & D' & Hm & (dl & Dl & A1 & A2 & A3 & A4 & A5 & A6 & A7 & A8 & A9))|[(dl & Dl & A1 & A2 & A3 & A4 & A5 & A6 & A7 & A8 & A9)|(dl & Dl & A1 & A2 & A3 & A4 & A5 & A6 & A7 & A8 & A9)]]].
        - exists dl. split; [exact Dl|]. split; [lia|]. unfold verify_fend, is_fend, is_fend_permissive, is_send_permissive, is_head. lia.
        - exists dl. split; [exact Dl|]. split. { destruct Dl as (_ & (_ & X & _) & _). destruct D' as (_ & (_ & Y & _) & _). congruence. }
          unfold verify_fend, is_fend, is_send, is_fend_permissive, is_send_permissive, base_is0, ris0. rewrite A1, A2. lia.
        - exists dl. split; [exact Dl|]. split; [lia|]. unfold verify_fend, is_fend, is_send, is_head, is_mend, is_fend_permissive, is_send_permissive, base_is0, ris0. rewrite A1, A2. lia.
        - exists dl. split; [exact Dl|]. split; [lia|]. unfold verify_fend, is_fend, is_send, is_head, is_mend, is_tend, is_fend_permissive, is_send_permissive, base_is0, ris0. rewrite A1, A2. lia. }
      destruct X as (dl & Dl & Hl & V). rewrite (G dl Dl Hl), V. eauto.
    - intros dl Dl Hl K. rewrite (G dl Dl Hl). replace (verify_fend dl) with true; [reflexivity|].
      unfold verify_fend, is_fend, is_send, is_head, is_mend, is_tend, is_fend_permissive, is_send_permissive, base_is0. lia.
  Qed.
End Classes.

(** a file 8 with the sections 16 and 457: the hypotheses are met, and section 457 is lost *)
Definition line_of (d : sdiv) : text := firstn 80 (pr_sdiv d).
Definition ex_skipped (mt : Z) : sec_src :=
  mkss 9228 8 mt (line_of (mksdiv (mkcont (of_int 92235) r_pi 0 0 1 0) 9228 8 mt))
       [line_of (mksdiv (mkcont r_pi r_pi 0 0 7 8) 9228 8 mt)] (line_of (mksdiv zero_cont 9228 8 0)) [].
Lemma ex_skipped_good mt : mt = 16 \/ mt = 457 -> skipped_section (ex_skipped mt).
Proof.
  intros H. assert (B : sees_head 9228 8 mt (x_head (ex_skipped mt)) = true) by (destruct H as [-> | ->]; vm_compute; reflexivity).
  assert (B1 : sees_tail (fun _ _ c => c =? mt) (line_of (mksdiv (mkcont r_pi r_pi 0 0 7 8) 9228 8 mt)) = true) by (destruct H as [-> | ->]; vm_compute; reflexivity).
  assert (B2 : sees_tail (fun _ _ c => c =? 0) (x_last (ex_skipped mt)) = true) by (destruct H as [-> | ->]; vm_compute; reflexivity).
  apply head_by in B. apply tail_by in B1. apply tail_by in B2. destruct B as (N0 & B), B1 as (N1 & a & b & c & C1 & E1), B2 as (N2 & a2 & b2 & c2 & C2 & E2).
  cbv beta in E1, E2. split; [exact B|]. split; [|split].
  - cbn [ex_skipped x_body x_mt]. constructor; [|constructor]. exists a, b. apply Z.eqb_eq in E1. subst c. exact C1.
  - exists a2, b2, c2. split; [exact C2|]. cbn [ex_skipped x_mt]. lia.
  - unfold sec_lines. constructor; [exact N0|]. cbn [ex_skipped x_body app]. constructor; [exact N1|]. constructor; [exact N2|constructor].
Qed.
Example C33_mf8_example : exists d, division_line (x_head (ex_skipped 16)) d /\ Forall skipped_section [ex_skipped 16; ex_skipped 457]
  /\ fend_line (line_of (mksdiv zero_cont 9228 0 0))
  /\ rd_yfile skind_of lib_class 8 d (mkst (lines_text (file8_lines (ex_skipped 16) [ex_skipped 457] (line_of (mksdiv zero_cont 9228 0 0)))) 1)
     = Ok (mkyfile 8 []) (mkst [] 7).
Proof.
  assert (F : Forall skipped_section [ex_skipped 16; ex_skipped 457]) by (constructor; [|constructor; [|constructor]]; apply ex_skipped_good; auto).
  assert (K := proj1 (Forall_inv F)). destruct K as (_ & _ & _ & d & D & _). exists d. split; [exact D|]. split; [exact F|].
  assert (E : sees is_fend (line_of (mksdiv zero_cont 9228 0 0)) = true) by (vm_compute; reflexivity).
  apply sees_ok in E. destruct E as (N & E). assert (E' := proj2 (fend_iff _) E). split; [exact E'|].
  destruct (C33_mf8_skipped skind_of lib_class (ex_skipped 16) [ex_skipped 457] (line_of (mksdiv zero_cont 9228 0 0)) d [] 1 F D ltac:(discriminate) ltac:(discriminate) ltac:(discriminate) N) as (R & _).
  specialize (R E'). rewrite app_nil_r in R. exact R.
Qed.

(** ** C53: parsing an indexed section is undefined when reading its text is *)
Definition no_transitions : text :=
  pr_sdiv (mksdiv (mkcont r_one r_one 2 0 0 0) 9228 12 102) ++ pr_list (mklist r_one r_one 0 0 0 [r_one]) 9228 12 102
  ++ pr_sdiv (mksdiv zero_cont 9228 12 0) ++ pr_sdiv (mksdiv zero_cont 9228 0 0).
Theorem C53_parse_undefined_reachable : exists f s, index_file no_transitions = Ok f s /\ tf_mf f = 12 /\ file_parse skind_of lib_class 12 f = Undef.
Proof. do 2 eexists. split; [vm_compute; reflexivity|]. split; vm_compute; reflexivity. Qed.
