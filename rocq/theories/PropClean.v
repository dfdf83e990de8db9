(** PropClean.v -- clean(): C24, C25. *)
From Coq Require Import QArith ZifyBool String.
From Verif Require Import Base Disco DiscoProofs Records RecordProofs RecordRT RecordSound Layout Spec LineFacts
  Normal Tree TreeSpec TreeProofs TreeGrammar TreeMaps PropRecords PropRecords2 PropRecords3 PropTree PropTree2 EditSpec PropEdit.
Open Scope Z_scope.
Open Scope list_scope.
Notation length := List.length.

(** the SEND line as the library writes it *)
Definition canonical_send (mat mf : Z) : text :=
  blanks 66 ++ right_justified 4 mat ++ right_justified 2 mf ++ right_justified 3 0 ++ blanks 5.
(** a cleaned line: the first 66 columns (padded with blanks), the numbers
    right-justified in columns 67-75, blanks in columns 76-80 *)
Definition cleaned (mat mf mt : Z) (l l' : text) : Prop :=
  endf_line mat mf mt l' /\ col 0 66 l' = lj 66 (col 0 66 l).
Definition clean_line (mat mf mt : Z) (l : text) : text :=
  lj 66 (col 0 66 l) ++ right_justified 4 mat ++ right_justified 2 mf ++ right_justified 3 mt ++ blanks 5.

Lemma lj_lj w t : (length t <= w)%nat -> lj w (lj w t) = lj w t.
Proof. intros H. apply lj_self. unfold lj. rewrite app_length, blanks_length. lia. Qed.
Lemma col_le a n (l : text) : (length (col a n l) <= n)%nat.
Proof. unfold col. apply firstn_le_length. Qed.
Lemma lj_len w t : (length t <= w)%nat -> length (lj w t) = w.
Proof. intros H. unfold lj. rewrite app_length, blanks_length. lia. Qed.
Lemma pr_text_line t mat mf mt : (length t <= 66)%nat ->
  pr_text (lj 66 t) mat mf mt = (lj 66 t ++ right_justified 4 mat ++ right_justified 2 mf ++ right_justified 3 mt ++ blanks 5) ++ [LF].
Proof. intros H. unfold pr_text. rewrite lj_lj by exact H. unfold pr_tail. now rewrite <- !app_assoc. Qed.
Lemma clean_line_ok mat mf mt l : good_tail mat mf mt -> noLF l -> cleaned mat mf mt l (clean_line mat mf mt l).
Proof.
  intros H N. assert (Ht := good_oktail _ _ _ H).
  assert (L := lj_len 66 (col 0 66 l) (col_le 0 66 l)).
  assert (Nl : noLF (lj 66 (col 0 66 l))) by (apply lj_noLF, noLF_col, N).
  destruct (layout_line mat mf mt _ Ht L Nl) as (ls & E & E1 & F).
  destruct ls as [|x [|y ls]]; cbn in E1; try lia. inversion F; subst.
  unfold unlines in E. cbn [flat_map] in E. rewrite app_nil_r in E.
  assert (x = clean_line mat mf mt l).
  { unfold pr_tail in E. rewrite !app_assoc in E. apply app_inj_tail in E. destruct E as [E _]. rewrite <- E. unfold clean_line. now rewrite <- !app_assoc. }
  subst x. split.
  - match goal with K : line80 _ _ _ (clean_line _ _ _ _) |- _ => destruct K as (A & B & C & D & G & I) end. repeat split; assumption.
  - unfold clean_line. unfold col at 1. change (skipn 0 ?z) with z. now apply firstn_exact.
Qed.
Lemma skip_skip {A} a b (l : list A) : skipn a (skipn b l) = skipn (a + b) l.
Proof. revert l. induction b as [|b IH]; intros l; [now rewrite Nat.add_0_r|]. rewrite <- plus_n_Sm. destruct l; cbn [skipn]; [now rewrite skipn_nil|apply IH]. Qed.
Lemma cleaned_unique mat mf mt l l' : cleaned mat mf mt l l' -> l' = clean_line mat mf mt l.
Proof.
  intros ((L & _ & A & B & C & D) & E). unfold clean_line. rewrite <- E, <- A, <- B, <- C, <- D. unfold col. change (skipn 0 l') with l'.
  rewrite <- (firstn_skipn 66 l') at 1. f_equal.
  rewrite <- (firstn_skipn 4 (skipn 66 l')) at 1. f_equal. rewrite skip_skip. change (4 + 66)%nat with 70%nat.
  rewrite <- (firstn_skipn 2 (skipn 70 l')) at 1. f_equal. rewrite skip_skip. change (2 + 70)%nat with 72%nat.
  rewrite <- (firstn_skipn 3 (skipn 72 l')) at 1. f_equal. rewrite skip_skip. change (3 + 72)%nat with 75%nat.
  rewrite firstn_all2; [reflexivity|]. rewrite skipn_length. lia.
Qed.

Lemma verify_fwd l b s mat mf mt m f t : inl 66 l b s -> carries m f t l ->
  verify_tail mat mf mt s =
  if t =? mt then if f =? mf then if m =? mat then Ok tt (mkst b (line s + 1)) else Err (EInt 6) (mkst b (line s + 1))
                  else Err (EInt 7) (mkst b (line s + 1)) else Err (EInt 8) (mkst b (line s + 1)).
Proof.
  intros H C. unfold verify_tail, bind. rewrite (rd_tail_fwd _ _ _ _ _ _ H C). unfold ret, throw.
  destruct (t =? mt); [|reflexivity]. destruct (f =? mf); [|reflexivity]. now destruct (m =? mat).
Qed.
Lemma rd_text_fwd t l b ln mat mf mt : next_line t = (l, b) -> carries mat mf mt l ->
  rd_text mat mf mt (mkst t ln) = Ok (lj 66 (col 0 66 l)) (mkst b (ln + 1)).
Proof.
  intros N C. assert (I : inl 0 l b (mkst t ln)) by exact N.
  destruct (rd_chars_fwd _ _ _ _ 66 I) as (s1 & E1 & I1 & L1).
  unfold rd_text. apply on_err_ok. unfold bind at 1. rewrite E1. unfold bind at 1. rewrite (verify_fwd _ _ _ _ _ _ _ _ _ I1 C), !Z.eqb_refl, L1. reflexivity.
Qed.
Lemma rd_text_fail t l b ln mat mf mt : next_line t = (l, b) -> ~ carries mat mf mt l ->
  exists s, rd_text mat mf mt (mkst t ln) = Err EStd s.
Proof.
  intros N C. pose proof (only_std_text mat mf mt (mkst t ln)) as S.
  destruct (rd_text mat mf mt (mkst t ln)) as [x s|e s|] eqn:E.
  - elim C. pose proof (consumes_text mat mf mt _ _ _ E) as (ls & Sp & _ & F & _). destruct ls as [|a ls].
    + exfalso. unfold rd_text in E. apply on_err_ok in E. cbn [splits] in Sp.
      destruct (inl_any (mkst t ln)) as (l0 & b0 & N0 & I0). cbn [buf] in *. 
      apply bind_ok in E. destruct E as (c & s1 & E1 & E).
      destruct (rd_chars_fwd _ _ _ _ 66 I0) as (s1' & E1' & I1 & L1). rewrite E1' in E1. injection E1 as <- <-.
      apply bind_ok in E. destruct E as ([] & s2 & E2 & E). injection E as _ <-.
      destruct (verify_cols _ _ _ _ _ _ _ _ I1 E2) as (K & _ & L). 
      revert E2. unfold verify_tail. intros _. rewrite N in N0. injection N0 as <- <-. elim C. exact K.
    + cbn [splits] in Sp. destruct Sp as (b' & N' & _). cbn [buf] in N'. rewrite N in N'. injection N' as <- <-. now inversion F.
  - exists s. f_equal. unfold rd_text, on_err in E. match type of E with match ?X with _ => _ end = _ => destruct X as [|e0 s0|] end; try discriminate.
    destruct e0; cbn in E; injection E as <- _; cbn in S; congruence || reflexivity.
  - elim S.
Qed.

Section Clean.
  Variables mat mf mt : Z.
  (** the loop: lines that carry the numbers are cleaned; the first other one stops it *)
  Lemma clean_lines_ok ls : forall rest acc ln, Forall noLF ls -> Forall (carries mat mf mt) ls ->
    clean_lines (length ls) mat mf mt acc (mkst (lines_text ls ++ rest) ln)
    = (acc ++ lines_text (map (clean_line mat mf mt) ls), None).
  Proof.
    induction ls as [|l ls IH]; intros rest acc ln N C.
    - cbn. now rewrite app_nil_r.
    - inversion N; inversion C; subst. rewrite lines_cons. cbn [length clean_lines].
      rewrite (rd_text_fwd _ l (lines_text ls ++ rest)) by (try apply next_line_app; assumption).
      rewrite pr_text_line by apply col_le. rewrite IH by assumption. cbn [map]. rewrite lines_cons'. f_equal.
      rewrite <- app_assoc. f_equal. unfold clean_line. rewrite <- !app_assoc. reflexivity.
  Qed.
  Lemma clean_lines_fail ls l rest n : forall acc ln, Forall noLF (ls ++ [l]) -> Forall (carries mat mf mt) ls -> ~ carries mat mf mt l ->
    (length ls < n)%nat ->
    clean_lines n mat mf mt acc (mkst (lines_text (ls ++ [l]) ++ rest) ln)
    = (acc ++ lines_text (map (clean_line mat mf mt) ls), Some EStd).
  Proof.
    revert n. induction ls as [|a ls IH]; intros [|n] acc ln N C Hl Hn; try (cbn in Hn; lia).
    - cbn [app] in *. rewrite lines_cons. inversion N; subst. cbn [clean_lines].
      destruct (rd_text_fail (l ++ LF :: lines_text [] ++ rest) l (lines_text [] ++ rest) ln mat mf mt) as (s & ->); auto.
      + now apply next_line_app.
      + cbn. now rewrite app_nil_r.
    - cbn [app] in *. inversion N; inversion C; subst. rewrite lines_cons. cbn [clean_lines].
      rewrite (rd_text_fwd _ a (lines_text (ls ++ [l]) ++ rest)) by (try apply next_line_app; assumption).
      rewrite pr_text_line by apply col_le. rewrite IH by (auto; cbn in Hn; lia). cbn [map]. rewrite lines_cons'. f_equal.
      rewrite <- app_assoc. f_equal. unfold clean_line. rewrite <- !app_assoc. reflexivity.
  Qed.
End Clean.
Lemma count_lines ls : Forall noLF ls -> count_nl (lines_text ls) = Z.of_nat (length ls).
Proof.
  intros N. unfold count_nl. f_equal. induction N as [|l ls H _ IH]; [reflexivity|]. rewrite lines_cons', filter_app, app_length. cbn [filter].
  rewrite Ascii.eqb_refl. cbn [length].
  assert (E : filter (Ascii.eqb LF) l = []).
  { clear -H. unfold noLF in H. induction l as [|c l IH]; [reflexivity|]. cbn [filter]. destruct (Ascii.eqb_spec LF c) as [<-|E]; [elim H; now left|].
    apply IH. intros K. apply H. now right. }
  rewrite E. cbn. lia.
Qed.
Lemma sec_nc_lines mat mf mt ls e : Forall noLF (ls ++ [e]) -> Z.of_nat (length ls) < 2 ^ 31 ->
  Z.to_nat (i32 (sec_NC (mktsec mat mf mt (lines_text (ls ++ [e]))))) = length ls.
Proof.
  intros N H. unfold sec_NC. cbn [ts_text]. rewrite count_lines by exact N. rewrite app_length. cbn [length].
  replace (Z.of_nat (length ls + 1) - 1) with (Z.of_nat (length ls)) by lia.
  assert (E : u32 (Z.of_nat (length ls)) = Z.of_nat (length ls)) by (unfold u32; apply Z.mod_small; lia).
  rewrite E. unfold i32. cbv zeta. rewrite Z.mod_small by lia.
  replace (Z.of_nat (length ls) <? 2147483648) with true by lia. apply Nat2Z.id.
Qed.
Lemma pr_send_canon mat mf : 0 < mat < 10000 -> 0 < mf < 100 -> pr_SEND mat mf = Val (canonical_send mat mf ++ [LF]).
Proof.
  intros Hm Hf. unfold pr_SEND, SEND. replace (mat <? 1) with false by lia. replace (mf <? 1) with false by lia. cbn [obind].
  f_equal. unfold pr_sdiv. replace (is_head _) with false by reflexivity. cbn [smat smf smt].
  assert (F := in_cols_fits 4 mat ltac:(lia) ltac:(unfold in_cols; cbn; lia)). unfold fits in F. apply Nat.leb_le in F.
  assert (E : pr_int 70 mat = blanks 66 ++ right_justified 4 mat).
  { unfold pr_int, rj, right_justified. rewrite app_assoc, blanks_app. do 2 f_equal. lia. }
  rewrite E. unfold canonical_send, right_justified, pr_int, rj, pr_col. now rewrite <- !app_assoc.
Qed.
Lemma canon_send_noLF mat mf : noLF (canonical_send mat mf).
Proof. unfold canonical_send. repeat (apply noLF_app; split); auto using noLF_blanks, show_noLF. Qed.

(** ** C24 *)
Lemma clean_eq mat mf mt ls e : 0 < mat < 10000 -> 0 < mf < 100 -> in_cols 3 mt ->
  Forall noLF (ls ++ [e]) -> Forall (carries mat mf mt) ls -> Z.of_nat (length ls) < 2 ^ 31 ->
  sec_clean (mktsec mat mf mt (lines_text (ls ++ [e])))
  = (mktsec mat mf mt (lines_text (map (clean_line mat mf mt) ls ++ [canonical_send mat mf])), None).
Proof.
  intros Hm Hf Ht N C Hl. unfold sec_clean. rewrite sec_nc_lines by assumption. cbn [ts_mat ts_mf ts_mt ts_text].
  apply Forall_app in N. destruct N as [N Ne].
  rewrite lines_app, clean_lines_ok by assumption. rewrite pr_send_canon by assumption. cbn [app].
  now rewrite lines_app, lines_one.
Qed.
Theorem C24_clean : forall mat mf mt ls e,
  0 < mat < 10000 -> 0 < mf < 100 -> in_cols 3 mt ->
  Forall noLF (ls ++ [e]) -> Forall (carries mat mf mt) ls -> Z.of_nat (length ls) < 2 ^ 31 ->
  exists ls', sec_clean (mktsec mat mf mt (lines_text (ls ++ [e])))
              = (mktsec mat mf mt (lines_text (ls' ++ [canonical_send mat mf])), None)
              /\ Forall2 (cleaned mat mf mt) ls ls'.
Proof.
  intros mat mf mt ls e Hm Hf Ht N C Hl. exists (map (clean_line mat mf mt) ls). split; [now apply clean_eq|].
  assert (G : good_tail mat mf mt) by (split; [|split]; [unfold in_cols; cbn; lia..|exact Ht]).
  apply Forall_app in N. destruct N as [N _]. clear -N G. induction N as [|l ls Nl _ IH]; cbn [map]; constructor; [now apply clean_line_ok|exact IH].
Qed.
Lemma carries_clean mat mf mt l : good_tail mat mf mt -> carries mat mf mt (clean_line mat mf mt l).
Proof.
  intros H. assert (Ht := good_oktail _ _ _ H). destruct Ht as (H1 & H2 & H3).
  assert (L := lj_len 66 (col 0 66 l) (col_le 0 66 l)).
  assert (L1 := pr_int_length _ _ H1). assert (L2 := pr_int_length _ _ H2). assert (L3 := pr_int_length _ _ H3).
  unfold clean_line. change (right_justified 4 mat) with (pr_int 4 mat). change (right_justified 2 mf) with (pr_int 2 mf). change (right_justified 3 mt) with (pr_int 3 mt).
  split; [|split].
  - rewrite col_app by auto. rewrite firstn_exact by auto. apply read_int_show.
  - rewrite app_assoc, col_app by (rewrite app_length; lia). rewrite firstn_exact by auto. apply read_int_show.
  - rewrite app_assoc, app_assoc, col_app by (rewrite !app_length; lia). rewrite firstn_exact by auto. apply read_int_show.
Qed.
(** cleaning twice is cleaning once *)
Theorem C24_idempotent : forall mat mf mt ls e,
  0 < mat < 10000 -> 0 < mf < 100 -> in_cols 3 mt ->
  Forall noLF (ls ++ [e]) -> Forall (carries mat mf mt) ls -> Z.of_nat (length ls) < 2 ^ 31 ->
  let s := fst (sec_clean (mktsec mat mf mt (lines_text (ls ++ [e])))) in sec_clean s = (s, None).
Proof.
  intros mat mf mt ls e Hm Hf Ht N C Hl s.
  assert (G : good_tail mat mf mt) by (split; [|split]; [unfold in_cols; cbn; lia..|exact Ht]).
  unfold s. rewrite clean_eq by assumption. cbn [fst]. apply Forall_app in N. destruct N as [N _].
  rewrite clean_eq; auto.
  - rewrite map_map. f_equal. f_equal. f_equal. f_equal. apply map_ext_in. intros l Hl'. rewrite Forall_forall in N.
    destruct (clean_line_ok mat mf mt l G (N l Hl')) as [A B]. unfold clean_line at 1. rewrite B. rewrite lj_lj by apply col_le. reflexivity.
  - apply Forall_app. split; [|constructor; [apply canon_send_noLF|constructor]]. apply Forall_map. eapply Forall_impl; [|exact N].
    cbv beta. intros l Nl. apply (clean_line_ok mat mf mt l G Nl).
  - apply Forall_map. eapply Forall_impl; [|exact N]. cbv beta. intros l _. now apply carries_clean.
  - now rewrite map_length.
Qed.
(** a text written by the library (lines of 80 columns as in C08 and a SEND line) is left as it is *)
Theorem C24_printed_unchanged : forall mat mf mt n t,
  0 < mat < 10000 -> 0 < mf < 100 -> in_cols 3 mt -> endf_lines mat mf mt n t -> n < 2 ^ 31 ->
  let s := mktsec mat mf mt (t ++ canonical_send mat mf ++ [LF]) in sec_clean s = (s, None).
Proof.
  intros mat mf mt n t Hm Hf Ht (ls & -> & <- & F) Hn s.
  assert (G : good_tail mat mf mt) by (split; [|split]; [unfold in_cols; cbn; lia..|exact Ht]).
  assert (E : Forall (fun l => clean_line mat mf mt l = l) ls).
  { eapply Forall_impl; [|exact F]. intros l Hl. symmetry. apply cleaned_unique. split; [exact Hl|]. symmetry. apply lj_self.
    unfold col. change (skipn 0 l) with l. rewrite firstn_length. destruct Hl as (L & _). lia. }
  assert (Em : map (clean_line mat mf mt) ls = ls) by (clear -E; induction E as [|l ls Hl _ IH]; cbn [map]; [reflexivity|]; cbv beta in Hl; now rewrite Hl, IH).
  unfold s. change (flat_map (fun l => l ++ [LF]) ls) with (lines_text ls). rewrite <- lines_one, <- lines_app.
  rewrite clean_eq; auto.
  - now rewrite Em.
  - apply Forall_app. split; [|constructor; [apply canon_send_noLF|constructor]]. eapply Forall_impl; [|exact F]. intros l Hl. apply Hl.
  - eapply Forall_impl; [|exact E]. cbv beta. intros l <-. now apply carries_clean.
Qed.
(** the same for whole trees: every section is cleaned, nothing else changes *)
Lemma clean_all_ok {A} (c : edit A) l : Forall (fun p => snd (c (snd p)) = None) l ->
  clean_all c l = (map (fun p => (fst p, fst (c (snd p)))) l, None).
Proof.
  induction 1 as [|[k a] l H _ IH]; [reflexivity|]. cbn [clean_all map fst snd] in *. destruct (c a) as [a' x]. cbn [fst snd] in *. subst. now rewrite IH.
Qed.
Definition all_sections (P : tsec -> Prop) (T : ttape) : Prop :=
  Forall (fun pm => Forall (fun pf => Forall (fun ps => P (snd ps)) (tf_secs (snd pf))) (tm_files (snd pm))) (tt_mats T).
Definition map_sections (g : tsec -> tsec) (T : ttape) : ttape :=
  mkttape (tt_tpid T) (map (fun pm => (fst pm, mktmat (tm_mat (snd pm))
    (map (fun pf => (fst pf, mktfile (tf_mat (snd pf)) (tf_mf (snd pf))
       (map (fun ps => (fst ps, g (snd ps))) (tf_secs (snd pf))))) (tm_files (snd pm))))) (tt_mats T)).
Theorem C24_tape : forall T, all_sections (fun s => snd (sec_clean s) = None) T ->
  tape_clean T = (map_sections (fun s => fst (sec_clean s)) T, None).
Proof.
  intros T H. unfold all_sections in H.
  assert (Ff : forall f, Forall (fun ps => snd (sec_clean (snd ps)) = None) (tf_secs f) ->
     file_clean f = (mktfile (tf_mat f) (tf_mf f) (map (fun ps => (fst ps, fst (sec_clean (snd ps)))) (tf_secs f)), None)).
  { intros f Hf. unfold file_clean. now rewrite clean_all_ok. }
  assert (Fm : forall m, Forall (fun pf => Forall (fun ps => snd (sec_clean (snd ps)) = None) (tf_secs (snd pf))) (tm_files m) ->
     mat_clean m = (mktmat (tm_mat m) (map (fun pf => (fst pf, fst (file_clean (snd pf)))) (tm_files m)), None)).
  { intros m Hf. unfold mat_clean. rewrite clean_all_ok; [reflexivity|]. eapply Forall_impl; [|exact Hf]. cbv beta. intros p Hp. now rewrite Ff. }
  unfold tape_clean. rewrite clean_all_ok.
  - unfold map_sections. do 2 f_equal. apply map_ext_in. intros [k m] Hm. rewrite Forall_forall in H. specialize (H _ Hm).
    cbn [fst snd] in *. rewrite Fm by exact H. cbn [fst]. do 2 f_equal. apply map_ext_in. intros [j f] Hf. rewrite Forall_forall in H. specialize (H _ Hf).
    cbn [fst snd] in *. now rewrite Ff.
  - eapply Forall_impl; [|exact H]. cbv beta. intros p Hp. now rewrite Fm.
Qed.
Open Scope string_scope.
Definition L_short := txt " 0.000000+0 0.000000+0          0          0          1          2 125 3  1".
Close Scope string_scope.
Example C24_example : Forall noLF ([L_head1; L_short] ++ [L_send]) /\ Forall (carries 125 3 1) [L_head1; L_short]
  /\ in_cols 3 1 /\ clean_line 125 3 1 L_head1 <> L_head1.
Proof.
  split; [repeat constructor; apply no_lf_ok; reflexivity|]. split; [repeat constructor|]. split; [split; reflexivity|]. vm_compute. discriminate.
Qed.

(** ** C25 *)
(** clean() throws exactly when a line before the last one carries other numbers,
    and then the content is what was cleaned before that line *)
Theorem C25_failed_clean : forall mat mf mt ls l rest e,
  Forall noLF (ls ++ l :: rest ++ [e]) -> Forall (carries mat mf mt) ls -> ~ carries mat mf mt l ->
  Z.of_nat (length (ls ++ l :: rest)) < 2 ^ 31 -> good_tail mat mf mt ->
  exists ls', sec_clean (mktsec mat mf mt (lines_text (ls ++ l :: rest ++ [e])))
              = (mktsec mat mf mt (lines_text ls'), Some EStd)
              /\ Forall2 (cleaned mat mf mt) ls ls'.
Proof.
  intros mat mf mt ls l rest e N C Hl Hn G. exists (map (clean_line mat mf mt) ls). split.
  - unfold sec_clean. replace (ls ++ l :: rest ++ [e]) with ((ls ++ l :: rest) ++ [e]) in * by now rewrite <- app_assoc.
    rewrite sec_nc_lines by assumption. cbn [ts_mat ts_mf ts_mt ts_text].
    replace ((ls ++ l :: rest) ++ [e]) with ((ls ++ [l]) ++ rest ++ [e]) in * by (rewrite <- !app_assoc; reflexivity).
    rewrite lines_app, clean_lines_fail; auto.
    + apply Forall_app in N. tauto.
    + rewrite app_length. cbn [length]. lia.
  - apply Forall_app in N. destruct N as [N _]. clear -N G. induction N as [|l ls Nl _ IH]; cbn [map]; constructor; [now apply clean_line_ok|exact IH].
Qed.
Theorem C25_succeeds_iff : forall mat mf mt ls e,
  0 < mat < 10000 -> 0 < mf < 100 -> in_cols 3 mt -> Forall noLF (ls ++ [e]) -> Z.of_nat (length ls) < 2 ^ 31 ->
  (snd (sec_clean (mktsec mat mf mt (lines_text (ls ++ [e])))) = None <-> Forall (carries mat mf mt) ls).
Proof.
  intros mat mf mt ls e Hm Hf Ht N Hl. split.
  - intros E. assert (D : forall l, carries mat mf mt l \/ ~ carries mat mf mt l).
    { intros l. unfold carries. destruct (read_int (col 66 4 l)) as [a|]; [|right; intros (K & _); discriminate].
      destruct (read_int (col 70 2 l)) as [b|]; [|right; intros (_ & K & _); discriminate].
      destruct (read_int (col 72 3 l)) as [c|]; [|right; intros (_ & _ & K); discriminate].
      destruct (Z.eq_dec a mat), (Z.eq_dec b mf), (Z.eq_dec c mt); subst; auto; right; intros (K1 & K2 & K3); congruence. }
    assert (S : Forall (carries mat mf mt) ls \/ exists a l b, ls = a ++ l :: b /\ Forall (carries mat mf mt) a /\ ~ carries mat mf mt l).
    { clear -D. induction ls as [|l ls IH]; [left; constructor|]. destruct (D l) as [H|H]; [|right; exists [], l, ls; auto].
      destruct IH as [IH|(a & l' & b & -> & Ha & Hl)]; [left; auto|]. right. exists (l :: a), l', b. auto. }
    destruct S as [S|(a & l & b & -> & Ha & Hb)]; [exact S|exfalso].
    assert (G : good_tail mat mf mt) by (split; [|split]; [unfold in_cols; cbn; lia..|exact Ht]).
    rewrite <- app_assoc in N. cbn [app] in N.
    destruct (C25_failed_clean mat mf mt a l b e N Ha Hb Hl G) as (ls' & K & _). rewrite <- app_assoc in E. cbn [app] in E. rewrite K in E. discriminate.
  - intros C. now rewrite clean_eq.
Qed.
(** it is not all-or-nothing: the content of this section is lost *)
Theorem C25_content_lost_refuted : exists s e, snd (sec_clean s) = Some e
  /\ ts_text (fst (sec_clean s)) <> ts_text s /\ (length (ts_text (fst (sec_clean s))) < length (ts_text s))%nat.
Proof.
  destruct (C25_failed_clean 125 3 1 [L_head1] L_head2 [L_body] L_send) as (ls' & E & F).
  - repeat constructor; apply no_lf_ok; reflexivity.
  - repeat constructor.
  - intros (_ & _ & K). vm_compute in K. discriminate.
  - reflexivity.
  - repeat split.
  - exists (mktsec 125 3 1 (lines_text ([L_head1] ++ L_head2 :: [L_body] ++ [L_send]))), EStd. rewrite E. cbn [fst snd ts_text].
    inversion F as [|? l' ? r Hc F']; subst. inversion F'; subst. apply cleaned_unique in Hc. subst. split; [reflexivity|].
    split; [intros K; apply (f_equal (@List.length _)) in K; vm_compute in K; discriminate|vm_compute; lia].
Qed.
(** a content without newline is replaced by a SEND record, without exception *)
Theorem C25_no_newline_refuted : forall mat mf mt t, noLF t -> 0 < mat < 10000 -> 0 < mf < 100 ->
  sec_clean (mktsec mat mf mt t) = (mktsec mat mf mt (canonical_send mat mf ++ [LF]), None).
Proof.
  intros mat mf mt t N Hm Hf. unfold sec_clean, sec_NC. cbn [ts_mat ts_mf ts_mt ts_text].
  assert (E : count_nl t = 0).
  { unfold count_nl. replace (filter (Ascii.eqb LF) t) with (@nil ascii); [reflexivity|]. symmetry. clear -N. unfold noLF in N.
    induction t as [|c l IH]; [reflexivity|]. cbn [filter]. destruct (Ascii.eqb_spec LF c) as [<-|E]; [elim N; now left|].
    apply IH. intros K. apply N. now right. }
  rewrite E. change (Z.to_nat (i32 (u32 (0 - 1)))) with 0%nat. cbn [clean_lines]. now rewrite pr_send_canon.
Qed.
