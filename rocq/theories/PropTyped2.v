(** PropTyped2.v -- typed and tree objects (C30); files that are not kept (C33);
    the tape number (C34); loops that do not end (C44). *)
From Coq Require Import ZifyBool ZifyNat.
From Verif Require Import Base Disco DiscoProofs Records RecordProofs RecordRT RecordSound Layout
  RealRound RealProofs Spec Normal LineFacts PropSec451 Sections SecSpec Codec SectionProofs
  Tree TreeSpec TreeProofs TreeGrammar TreeMaps PropTree PropTree2 Typed TypedSpec TypedProofs PropTyped.
Open Scope Z_scope.

Section Classes.
  Variable code : Type.
  Variable body : code -> Type.
  Variable kind : forall c, skind (body c).
  Variable class_of : Z -> Z -> option code.
  Variable rep inv : forall c, body c -> Prop.
  Hypothesis T : table_ok code body kind class_of rep inv.
  Notation ysec := (ysec code body). Notation yfile := (yfile code body). Notation ymat := (ymat code body). Notation ytape := (ytape code body).
  Notation good_yfile := (good_yfile code body kind rep inv).
  Notation good_ymat := (good_ymat code body kind rep inv).
  Notation inv_ymat := (inv_ymat code body kind inv).

  (** ** C30: toFile, toMaterial, then parse *)
  Theorem C30_file : forall f mat, 0 < mat < 10000 -> good_yfile f ->
    exists F, to_file kind f mat = Val F /\ tf_mat F = mat /\ tf_mf F = yf_mf f
      /\ pr_yfile kind f mat = file_content F /\ file_parse kind class_of (yf_mf f) F = Val f.
  Proof.
    intros f mat Hm G. destruct (printed_file _ _ _ _ _ _ T f mat Hm G) as (s & S1 & S2 & S3 & S4 & P & _).
    destruct (C18_file s S3 S4) as (F & s0 & E & F1 & F2 & F3). exists F. unfold to_file. rewrite P. cbn [obind]. rewrite E. cbn [res_out].
    split; [reflexivity|]. split; [congruence|]. split; [congruence|]. split; [congruence|].
    unfold file_parse. rewrite F3. cbn [obind]. unfold run.
    destruct (C31_round_trip _ _ _ _ _ _ T f mat Hm G) as (t & P' & R). assert (t = lines_text (file_all s)) by congruence. subst t.
    specialize (R [] 1). rewrite app_nil_r in R. now rewrite R.
  Qed.
  Theorem C30_material : forall m, good_ymat m ->
    exists X, to_mat kind m = Val X /\ tm_mat X = ym_mat m
      /\ pr_ymat kind m = mat_content X /\ mat_parse kind class_of X = Val m.
  Proof.
    intros m G. destruct (printed_mat _ _ _ _ _ _ T m G) as (s & S1 & S3 & S4 & P & _).
    destruct (C18_material s S3 S4) as (X & s0 & E & X1 & X2). exists X. unfold to_mat. rewrite P. cbn [obind]. rewrite E. cbn [res_out].
    split; [reflexivity|]. split; [congruence|]. split; [congruence|].
    unfold mat_parse. rewrite X2. cbn [obind]. unfold run.
    destruct (C32_material_round_trip _ _ _ _ _ _ T m G) as (t & P' & R). assert (t = lines_text (mat_all s)) by congruence. subst t.
    specialize (R [] 1). rewrite app_nil_r in R. now rewrite R.
  Qed.

  (** ** C32: lookups in a material and in a tape *)
  Theorem C32_lookups : forall m, inv_ymat m -> forall mf (f : yfile),
    (ymat_file m mf = Val f <-> In (mf, f) (ym_files m))
    /\ (ymat_hasMF m mf = true <-> exists f, ymat_file m mf = Val f)
    /\ (forall mt (x : ysec), mf <> 30 -> (ymat_section m mf mt = Val x <-> exists f, ymat_file m mf = Val f /\ yfile_section f mt = Val x))
    /\ (forall mt, ymat_hasMFMT m mf mt = true <-> exists f, ymat_file m mf = Val f /\ yfile_has f mt = true).
  Proof.
    intros m (A & F) mf f. unfold ymat_section, ymat_hasMF, ymat_hasMFMT, ymat_file, at_, mhas.
    assert (K : forall f, mfind mf (ym_files m) = Some f <-> In (mf, f) (ym_files m)).
    { intros g. split; [apply mfind_In|]. apply In_mfind. now apply strict_NoDup. }
    rewrite Forall_forall in F. destruct (mfind mf (ym_files m)) as [g|] eqn:E.
    - assert (Hg := proj1 (K g) eq_refl). assert (Eg := proj1 (F _ Hg)). cbn in Eg. split; [|split; [|split]].
      + split; [intros H; injection H as <-; exact Hg|]. intros H. apply K in H. congruence.
      + split; eauto.
      + intros mt x H30. cbn [obind]. replace (yf_mf g =? 30) with false by lia. split; [eauto|]. intros (h & Hh & Hx). now injection Hh as <-.
      + intros mt. split; [eauto|]. intros (h & Hh & Hx). now injection Hh as <-.
    - split; [|split; [|split]].
      + split; [discriminate|]. intros H. apply K in H. discriminate.
      + split; [discriminate|]. intros (h & Hh). discriminate.
      + intros mt x _. split; [discriminate|]. intros (h & Hh & _). discriminate.
      + intros mt. split; [discriminate|]. intros (h & Hh & _). discriminate.
  Qed.
  (** material( MAT ): the materials with that number, in the order of the tape *)
  Theorem C32_tape_lookups : forall (t : ytape) mat,
    (forall m, In m (ytape_material t mat) <-> In m (yt_mats t) /\ ym_mat m = mat)
    /\ (ytape_has t mat = true <-> exists m, In m (yt_mats t) /\ ym_mat m = mat).
  Proof.
    intros t mat. assert (K : forall m, In m (ytape_material t mat) <-> In m (yt_mats t) /\ ym_mat m = mat).
    { intros m. unfold ytape_material. rewrite filter_In. rewrite Z.eqb_eq. tauto. }
    split; [exact K|]. unfold ytape_has. destruct (ytape_material t mat) as [|m l] eqn:E.
    - split; [discriminate|]. intros (m & H). apply K in H. destruct H.
    - split; [intros _|reflexivity]. exists m. apply K. now left.
  Qed.
  (** a tape holds at least one material *)
  Theorem C32_tape_not_empty :
    (forall i (t : ytape), make_ytape i [] = Val t -> False)
    /\ (forall s t s', rd_ytape kind class_of s = Ok t s' -> yt_mats t <> [] /\ Forall inv_ymat (yt_mats t)).
  Proof.
    split; [discriminate|]. intros s t s' E. unfold rd_ytape in E. apply on_err_ok in E.
    apply bind_ok in E. destruct E as (i & s1 & _ & E). apply bind_ok in E. destruct E as (b & s2 & _ & E).
    apply bind_ok in E. destruct E as (l & s3 & E3 & E). apply lift_ok in E. destruct E as [E _].
    unfold make_ytape in E. destruct (i32 (Z.of_nat (length l)) =? 0) eqn:L; [discriminate|]. injection E as <-. cbn [yt_mats].
    split. { intros ->. discriminate. }
    unfold rd_ymats in E3. apply bind_ok in E3. destruct E3 as (d & s4 & _ & E3). eapply div_loop_all; [|exact E3].
    intros d0 s0 x0 s0' _ H0. exact (proj2 (C32_read_consistent _ _ _ _ _ _ T _ _ _ _ H0)).
  Qed.

  (** ** C33: what is not kept *)
  (** A file 30 is accepted but never printed. *)
  Theorem C33_mf30_refuted : forall m : ymat,
    pr_ymat kind m = pr_ymat kind (mkymat (ym_mat m) (filter (fun p => negb (yf_mf (snd p) =? 30)) (ym_files m))).
  Proof.
    intros m. unfold pr_ymat. cbn [ym_mat ym_files]. f_equal. unfold oconcat.
    induction (ym_files m) as [|[k f] l IH]; [reflexivity|]. cbn [filter snd fold_right].
    destruct (yf_mf f =? 30) eqn:E; cbn [negb fold_right snd].
    - unfold pr_yfile at 1. rewrite E, <- IH. clear. destruct (fold_right _ _ l); reflexivity.
    - now rewrite IH.
  Qed.
  (** the lines of a file 30: any lines with MF = 30 *)
  Lemma skip_mf_lines ls : Forall noLF ls -> Forall (fun l => exists mat mt, carries mat 30 mt l) ls ->
    forall l m f t r ln fuel, noLF l -> carries m f t l -> f <> 30 -> (length ls + 1 < fuel)%nat ->
    skip_mf 30 fuel 30 (mkst (lines_text ls ++ l ++ LF :: r) ln) = Ok tt (mkst r (ln + Z.of_nat (length ls) + 1)).
  Proof.
    induction ls as [|a ls IH]; intros Nl Cl l m f t r ln fuel N C Hf Hfu.
    - destruct fuel as [|fu]; [cbn in Hfu; lia|]. cbn [skip_mf]. rewrite Z.eqb_refl. unfold bind. cbn [lines_text flat_map app].
      rewrite (skip_fwd _ l r ln m f t (next_line_app l r N) C). destruct fu as [|fu]; [cbn in Hfu; lia|]. cbn [skip_mf].
      replace (f =? 30) with false by lia. unfold ret. cbn. do 2 f_equal. lia.
    - destruct fuel as [|fu]; [cbn in Hfu; lia|]. cbn [skip_mf]. rewrite Z.eqb_refl. unfold bind. rewrite lines_cons.
      inversion Cl as [|? ? (mat & mt & Ca) Cl']; subst. inversion Nl; subst.
      rewrite (skip_fwd _ a _ ln mat 30 mt (next_line_app a _ H1) Ca). rewrite (IH H2 Cl' l m f t r (ln + 1) fu N C Hf) by (cbn [length] in Hfu; lia).
      do 2 f_equal. cbn [length]. lia.
  Qed.
  (** whatever the lines of a file 30 hold, they are accepted and dropped *)
  Theorem C33_mf30_dropped : forall d ls l m f t rest ln, smf d = 30 -> Forall noLF ls ->
    Forall (fun l => exists mat mt, carries mat 30 mt l) ls -> noLF l -> carries m f t l -> f <> 30 ->
    rd_any_file kind class_of d (mkst (lines_text ls ++ l ++ LF :: rest) ln)
    = Ok (mkyfile 30 []) (mkst rest (ln + Z.of_nat (length ls) + 1)).
  Proof.
    intros d ls l m f t rest ln H30 N C Nl Cl Hf. unfold rd_any_file. rewrite H30. change (known_mf 30) with true. cbv iota.
    unfold rd_yfile. rewrite H30. change (30 =? 30) with true. cbv iota. unfold get_pos, bind. cbn [buf].
    rewrite (skip_mf_lines ls N C l m f t rest ln _ Nl Cl Hf); [reflexivity|].
    rewrite !app_length. cbn [length]. enough (length ls <= length (lines_text ls))%nat by lia.
    clear. induction ls as [|a ls IH]; [cbn; lia|]. rewrite lines_cons', app_length. cbn [length]. lia.
  Qed.
  (** A file 8 that does not begin with section 454, 457 or 459 is read as an empty
      file. *)
  Theorem C33_mf8_dropped : forall d s f s', smt d <> 454 -> smt d <> 457 -> smt d <> 459 ->
    rd_yfile kind class_of 8 d s = Ok f s' -> f = mkyfile 8 [].
  Proof.
    intros d s f s' H1 H2 H3 E. unfold rd_yfile in E. cbn [Z.eqb Pos.eqb] in E.
    replace (true && negb ((smt d =? 454) || (smt d =? 457) || (smt d =? 459))) with true in E by lia.
    apply on_err_ok in E. apply bind_ok in E. destruct E as (b & s1 & _ & E). apply bind_ok in E. destruct E as (d' & s2 & _ & E).
    apply bind_ok in E. destruct E as ([] & s3 & _ & E). now injection E as <- _.
  Qed.
  (** A file without sections is printed as a lone FEND line, which is rejected when
      the material is read again. *)
  Theorem C33_empty_file_refuted : forall mat fs (f : yfile) rest mf, 0 < mat < 10000 ->
    Forall good_yfile fs -> yf_secs f = [] -> yf_mf f = mf -> mf <> 30 ->
    exists t, oconcat (fun g => pr_yfile kind g mat) (fs ++ [f]) = Val t
      /\ forall ln, exists s, parse_ymat kind class_of (mkst (t ++ rest) ln) = Err EStd s.
  Proof.
    intros mat fs f rest mf Hm Gs Ef Emf H30. destruct (canon_facts mat Hm) as (Ce1 & Ce2 & Ce3 & Ce4).
    destruct (mat_stuck _ _ _ _ _ _ T fs mat _ _ rest Hm Gs Ce1 Ce2) as (t & P & H).
    - unfold is_mend, is_fend_permissive, is_send_permissive. cbn. lia.
    - intros s. unfold rd_any_file. cbn [smf]. change (known_mf 0) with false. cbv iota. eexists. reflexivity.
    - exists (t ++ canonical_end mat ++ [LF]). split.
      + assert (Pf : pr_yfile kind f mat = Val (canonical_end mat ++ [LF])).
        { unfold pr_yfile. rewrite Emf, Ef. replace (mf =? 30) with false by lia. rewrite Ce3. reflexivity. }
        clear -P Pf. revert t P. unfold oconcat. induction fs as [|a fs IH]; intros t P; cbn [app fold_right] in *.
        * injection P as <-. rewrite Pf. unfold oapp. cbn [obind app]. now rewrite app_nil_r.
        * destruct (pr_yfile kind a mat) as [x| |]; [|discriminate|discriminate]. cbn [oapp obind] in *.
          match type of P with obind ?q _ = _ => destruct q as [y| |] eqn:Ey; [|discriminate|discriminate] end. injection P as <-.
          rewrite (IH y eq_refl). cbn. now rewrite app_assoc.
      + intros ln. rewrite <- !app_assoc. cbn [app]. apply H.
  Qed.

  (** ** C34 *)
  (** printing forgets the tape number: *)
  Theorem C34_number_refuted : forall x n n' (ms : list ymat),
    pr_ytape kind (mkytape (mktpid x n) ms) = pr_ytape kind (mkytape (mktpid x n') ms).
  Proof. reflexivity. Qed.
  (** the text of the identification and all materials survive: *)
  Theorem C34_text : forall x n (ms : list ymat), length x = 66%nat -> noLF x -> ms <> [] -> len ms < 2 ^ 31 -> Forall good_ymat ms ->
    exists u t s, pr_ytape kind (mkytape (mktpid x n) ms) = Val u /\ rd_ytape kind class_of (mkst u 0) = Ok t s
      /\ tptext (yt_id t) = x /\ yt_mats t = ms /\ tpnum (yt_id t) = 0.
  Proof.
    intros x n ms H1 H2 H3 H4 H5. destruct (C32_tape_round_trip _ _ _ _ _ _ T (mkytape (mktpid x n) ms) H1 H2 H3 H4 H5) as (u & P & R).
    exists u. do 2 eexists. split; [exact P|]. specialize (R [] 0). rewrite app_nil_r in R. split; [exact R|]. auto.
  Qed.

  (** ** C44 *)
  (** at the end of the text a division of zeros is read, again and again *)
  Definition zero_div : sdiv := mksdiv zero_cont 0 0 0.
  Lemma end_div ln : rd_sdiv (mkst [] ln) = Ok zero_div (mkst [] (ln + 1)).
  Proof. exact (div_at_fwd [] zero_div [] ln nil_div). Qed.
  Lemma spin fuel : forall ln, div_loop not_tend (rd_ymat kind class_of) fuel zero_div (mkst [] ln) = UB.
  Proof.
    induction fuel as [|f IH]; intros ln; [reflexivity|]. cbn [div_loop]. change (not_tend zero_div) with false. cbv iota.
    unfold bind at 1. assert (E : rd_ymat kind class_of zero_div (mkst [] ln) = Ok (mkymat 0 []) (mkst [] ln)) by reflexivity. rewrite E.
    unfold bind at 1. rewrite end_div. unfold bind. now rewrite IH.
  Qed.
  (** A tape without TEND line: reading does not end, however long it is run. *)
  Theorem C44_missing_tend_refuted : forall ms, Forall good_ymat ms ->
    exists t, oconcat (pr_ymat kind) ms = Val t
      /\ forall fuel ln, rd_ymats kind class_of fuel (mkst t ln) = UB.
  Proof.
    intros ms Gs. destruct (mats_printed _ _ _ _ _ _ T ms Gs) as (ss & _ & Po & F2). eexists. split; [exact Po|].
    clear Po Gs. intros fuel. unfold rd_ymats.
    induction F2 as [|m s ms ss (h & (l & t1 & Et & Nl & D & R) & Sh) F2 IH] in fuel |- *; intros ln; cbn [flat_map].
    - unfold bind. rewrite end_div. apply spin.
    - unfold bind at 1. rewrite Et, <- app_assoc. cbn [app]. rewrite (rd_line _ _ _ _ Nl D). destruct fuel as [|f]; [reflexivity|]. cbn [div_loop]. rewrite Sh.
      unfold bind at 1. rewrite R. specialize (IH f (ln + 1 + nc_ymat code body kind m)). unfold bind in IH. unfold bind.
      destruct (rd_sdiv _) as [d' s1|e s1|]; [|discriminate|reflexivity]. now rewrite IH.
  Qed.
End Classes.
