(** SectionProofs.v -- from the body of a section to the section. *)
From Coq Require Import ZifyBool ZifyNat.
From Verif Require Import Base Disco DiscoProofs Records RecordProofs RecordRT RecordSound Layout
  RealRound RealProofs Spec Normal LineFacts Sections SecSpec Codec.
Open Scope Z_scope.

Lemma rlt_zero x : rlt x rzero = false <-> real_le rzero x.
Proof. unfold rlt, real_le. rewrite <- rle_spec. destruct (rle rzero x); cbn; intuition congruence. Qed.

(** what has to be shown about a body *)
Record body_cod {B} (k : skind B) (rep inv : B -> Prop) : Prop := mkbc
  { bc_mf : 0 < k_mf k < 100;
    bc_fix : match k_for k with None => match k_fix k with Some n => 0 < n < 1000 | None => True end | Some _ => False end;
    bc_ints : forall b, rep b -> inv b -> let '(a1, a2, a3, a4) := k_ints k b in
       in_cols 11 a1 /\ in_cols 11 a2 /\ in_cols 11 a3 /\ in_cols 11 a4;
    bc_cod : forall h awr, endf_real awr -> cod (fun b => rep b /\ head_ints h = k_ints k b) inv (k_read k h) (k_print k awr) (k_nc k) }.

(** the same when the section number matters *)
Record body_codm {B} (k : skind B) (rep inv : B -> Prop) : Prop := mkbm
  { bm_mf : 0 < k_mf k < 100;
    bm_fix : match k_fix k with Some n => 0 < n < 1000 | None => True end;
    bm_ints : forall b, rep b -> inv b -> let '(a1, a2, a3, a4) := k_ints k b in
       in_cols 11 a1 /\ in_cols 11 a2 /\ in_cols 11 a3 /\ in_cols 11 a4;
    bm_cod : forall h awr, endf_real awr ->
       cod (fun b => rep b /\ allowed k (k_mt k h) b /\ head_ints h = k_ints k b) inv (k_read k h) (k_print k awr) (k_nc k);
    bm_for : forall h mat mf, post (k_read k h mat mf (k_rmt k h)) (allowed k (k_mt k h)) }.
Lemma bodym {B} (k : skind B) rep inv : body_cod k rep inv -> body_codm k rep inv.
Proof.
  intros [Hf Hx Hi Hc]. destruct (k_for k) eqn:E; [destruct Hx|]. split; auto.
  - intros h awr Ha. apply (cod_imp _ _ _ _ _ (Hc h awr Ha)); tauto.
  - intros h mat mf s x s' _. unfold allowed. now rewrite E.
Qed.
(** the same without the lines *)
Record body_cdw {B} (k : skind B) (rep inv : B -> Prop) : Prop := mkbw
  { bw_mf : 0 < k_mf k < 100;
    bw_fix : match k_fix k with Some n => 0 < n < 1000 | None => True end;
    bw_ints : forall b, rep b -> inv b -> let '(a1, a2, a3, a4) := k_ints k b in
       in_cols 11 a1 /\ in_cols 11 a2 /\ in_cols 11 a3 /\ in_cols 11 a4;
    bw_cod : forall h awr, endf_real awr ->
       cdw (fun b => rep b /\ allowed k (k_mt k h) b /\ head_ints h = k_ints k b) inv (k_read k h) (k_print k awr) (k_nc k);
    bw_for : forall h mat mf, post (k_read k h mat mf (k_rmt k h)) (allowed k (k_mt k h)) }.
Lemma body_weaken {B} (k : skind B) rep inv : body_codm k rep inv -> body_cdw k rep inv.
Proof. intros [Hf Hx Hi Hc Hp]. split; auto. intros h awr Ha. apply cod_cdw. now apply Hc. Qed.
Lemma is_send_ends d l mat mf : base_cols l (sbase d) -> tail_is (smat d) (smf d) (smt d) l ->
  is_send d = true -> mat = smat d -> mf = smf d -> ends_section mat mf l.
Proof.
  intros (A & B & C & D & E & F) T S -> ->. unfold is_send, is_send_permissive, base_is0, ris0 in S.
  assert (smt d = 0) by lia. split; [now rewrite H in T|].
  exists (c1 (sbase d)), (c2 (sbase d)). split; [|lia].
  assert (l1 (sbase d) = 0) by lia. assert (l2 (sbase d) = 0) by lia.
  assert (n1 (sbase d) = 0) by lia. assert (n2 (sbase d) = 0) by lia.
  repeat split; congruence.
Qed.
Lemma rd_sdiv_cols s d s' : rd_sdiv s = Ok d s' ->
  exists l b, next_line (buf s) = (l, b) /\ base_cols l (sbase d) /\ tail_is (smat d) (smf d) (smt d) l
    /\ buf s' = b /\ line s' = line s + 1.
Proof.
  intros E. unfold rd_sdiv in E. apply on_err_ok in E.
  destruct (next_line (buf s)) as [l b] eqn:N. exists l, b. split; [reflexivity|].
  assert (I : inl 0 l b s) by now apply inl_start.
  apply bind_ok in E. destruct E as (c & s1 & E1 & E). destruct (rd_base_cols _ _ _ _ _ I E1) as (Bc & I1 & L1).
  apply bind_ok in E. destruct E as ([[m f] t] & s2 & E2 & E). destruct (rd_tail_cols _ _ _ _ _ _ _ I1 E2) as (Tc & B2 & L2).
  apply bind_ok in E. destruct E as (? & s3 & E3 & E). apply require_ok in E3. destruct E3 as [_ ->].
  apply bind_ok in E. destruct E as (? & s3 & E3 & E). apply require_ok in E3. destruct E3 as [_ ->].
  apply bind_ok in E. destruct E as (? & s3 & E3 & E). apply require_ok in E3. destruct E3 as [_ ->].
  injection E as <- <-. cbn. repeat split; auto; try apply Bc; try apply Tc. lia.
Qed.
Lemma rd_SEND_sound mat mf s u s' : rd_SEND mat mf s = Ok u s' ->
  consumed (ends_section mat mf) s s' /\ line s' = line s + 1.
Proof.
  intros E. unfold rd_SEND in E. apply bind_ok in E. destruct E as (d & s1 & E1 & E).
  destruct (rd_sdiv_cols _ _ _ E1) as (l & b & N & Bc & Tc & Bb & L).
  apply bind_ok in E. destruct E as (? & s3 & E3 & E). apply require_ok in E3. destruct E3 as [S1 ->].
  apply bind_ok in E. destruct E as (? & s3 & E3 & E). apply require_ok in E3. destruct E3 as [S2 ->].
  apply require_ok in E. destruct E as [S3 ->].
  split; [|exact L]. exists 1%nat. cbn [drop_lines]. rewrite N. cbn [snd]. split; [exact Bb|]. split; [exact L|].
  intros i Hi. assert (i = 0%nat) by lia. subst. cbn [nth_line]. rewrite N. cbn [fst].
  eapply is_send_ends; eauto; lia.
Qed.
Lemma send_text mat mf : 0 < mat < 10000 -> 0 < mf < 100 ->
  pr_SEND mat mf = Val (send_line mat mf ++ [LF])
  /\ reads rd_sdiv (send_line mat mf ++ [LF]) (mksdiv zero_cont mat mf 0) 1.
Proof.
  intros Hm Hf.
  assert (G : oktail mat mf 0).
  { apply good_oktail. split; [|split]; unfold in_cols; cbn; lia. }
  assert (E : send_line mat mf ++ [LF] = blanks 66 ++ pr_tail mat mf 0).
  { unfold send_line, pr_tail, pr_int, rj, right_justified, pr_col. now rewrite <- !app_assoc. }
  rewrite E. split.
  - unfold pr_SEND, SEND. replace (mat <? 1) with false by lia. replace (mf <? 1) with false by lia. cbn [obind].
    now rewrite pr_sdiv_end by (reflexivity || apply G).
  - apply reads_sdiv_end; auto; lia.
Qed.
Lemma reads_SEND mat mf : 0 < mat < 10000 -> 0 < mf < 100 -> reads (rd_SEND mat mf) (send_line mat mf ++ [LF]) tt 1.
Proof.
  intros Hm Hf. destruct (send_text mat mf Hm Hf) as [_ R]. unfold rd_SEND. eapply reads_k.
  - eapply reads_bind_r; [exact R|].
    eapply reads_require_bind. { unfold is_send, is_send_permissive, base_is0. cbn. lia. }
    eapply reads_require_bind. { cbn. apply Z.eqb_refl. }
    cbn [smf]. rewrite Z.eqb_refl. apply reads_ret.
  - reflexivity.
Qed.

Section Generic.
  Context {B : Type}.
  Variables (k : skind B) (rep inv : B -> Prop).
  Hypothesis H : body_cdw k rep inv.

  Lemma section_round_trip : forall x mat, 0 < mat < 10000 -> good_ids x -> good_number k x ->
      rep (s_body x) -> inv (s_body x) ->
      exists body,
        pr_section k x mat (k_mf k) = Val (body ++ send_line mat (k_mf k) ++ [LF])
        /\ endf_lines mat (k_mf k) (s_mt x) (nc_section k x) body
        /\ reads (parse_section k mat) (body ++ send_line mat (k_mf k) ++ [LF]) x (nc_section k x + 1).
  Proof.
    intros x mat Hm (Hz & Ha & Hp) Hn R I. destruct H as [Hf Hx Hi Hc _]. destruct Hn as [Hn Hal].
    assert (Nt : 0 < s_mt x < 1000) by (destruct (k_fix k); lia).
    assert (G : good_tail mat (k_mf k) (s_mt x)) by (split; [|split]; unfold in_cols; cbn; lia).
    assert (Gt := good_oktail _ _ _ G).
    specialize (Hi _ R I). destruct (k_ints k (s_body x)) as [[[a1 a2] a3] a4] eqn:Ei. destruct Hi as (i1 & i2 & i3 & i4).
    assert (Oc : okcont (head_cont k x)).
    { unfold head_cont. rewrite Ei. unfold okcont. cbn. repeat split; try (apply in_cols_fits; auto; lia); try apply okr_of_int; try apply endf_okr; auto; lia. }
    set (h := mksdiv (head_cont k x) mat (k_mf k) (s_mt x)).
    assert (Eh : head_ints h = k_ints k (s_body x)) by (unfold head_ints, h, head_cont; rewrite Ei; reflexivity).
    assert (Ec : round_int (c1 (head_cont k x)) = s_za x).
    { unfold head_cont. rewrite Ei. cbn [c1]. apply round_of_int. lia. }
    assert (Em : k_mt k h = s_mt x) by (unfold k_mt; destruct (k_fix k); auto).
    specialize (Hc h (s_awr x) Ha). rewrite Em in Hc.
    exists (pr_cont (head_cont k x) mat (k_mf k) (s_mt x) ++ k_print k (s_awr x) (s_body x) mat (k_mf k) (s_mt x)).
    destruct (send_text mat (k_mf k) Hm Hf) as [Es _].
    split; [unfold pr_section; rewrite Es; reflexivity|]. split.
    - unfold nc_section. apply layout_app; [apply layout_cont; auto using okcont_pr|]. apply (cw_layout _ _ _ _ _ Hc); auto.
    - rewrite <- app_assoc. unfold parse_section. eapply reads_k.
      + eapply reads_bind.
        { apply (reads_sdiv_full h). repeat split; try apply Oc; try apply Gt; cbn; lia. }
        unfold rd_section. eapply reads_bind0.
        { unfold sec_head. eapply reads_k.
          - eapply reads_bind0.
            { unfold head_za32. change (sbase h) with (head_cont k x). rewrite Ec. cbv zeta.
              replace ((-2147483648 <=? s_za x) && (s_za x <? 2147483648)) with true by (cbn in *; lia). apply reads_ret. }
            eapply reads_require_bind; [lia|].
            eapply reads_require_bind.
            { cbn [h sbase]. unfold head_cont. rewrite Ei. cbn [c2]. apply rlt_zero in Hp. now rewrite Hp. }
            eapply reads_require_bind. { cbn [h smt]. destruct (k_fix k); [reflexivity|lia]. }
            eapply reads_require_bind. { cbn [h smat smf]. destruct (k_chk k); [|reflexivity]. now rewrite !Z.eqb_refl. }
            apply reads_ret.
          - reflexivity. }
        assert (Er : k_rmt k h = s_mt x).
        { unfold k_rmt, k_mt. destruct (k_own k), (k_fix k); cbn; auto. }
        assert (Ea : k_rmat k h mat = mat) by (unfold k_rmat; now destruct (k_hm k)).
        rewrite Er, Ea. eapply reads_bind; [apply (cw_reads _ _ _ _ _ Hc); auto|].
        eapply reads_bind_r; [now apply reads_SEND|].
        rewrite Em. cbn [h sbase]. unfold head_cont. rewrite Ei. cbn [c2]. destruct x. apply reads_ret.
      + unfold nc_section. lia.
  Qed.
  Lemma section_sound : forall h mat s x s', rd_section k h mat s = Ok x s' ->
      ((k_chk k = true -> smat h = mat /\ smf h = k_mf k)
      /\ s_za x = round_int (c1 (sbase h)) /\ s_awr x = c2 (sbase h) /\ s_mt x = k_mt k h
      /\ 1 <= s_za x /\ real_le rzero (s_awr x) /\ (k_fix k = None -> 1 <= s_mt x)
      /\ inv (s_body x) /\ allowed k (s_mt x) (s_body x))
      /\ exists s1, k_read k h (k_rmat k h mat) (k_mf k) (k_rmt k h) s = Ok (s_body x) s1
           /\ consumed (ends_section mat (k_mf k)) s1 s' /\ line s' = line s1 + 1.
  Proof.
    intros h mat s x s' E. destruct H as [Hf Hx Hi Hc Hfor]. assert (E0 : endf_real rzero) by (left; split; reflexivity). specialize (Hc h rzero E0).
    unfold rd_section in E. apply bind_ok in E. destruct E as ([za awr] & s1 & E1 & E).
    unfold sec_head in E1. apply bind_ok in E1. destruct E1 as (za' & s2 & E2 & E1).
    assert (Ez : za' = round_int (c1 (sbase h)) /\ s2 = s).
    { unfold head_za32 in E2. destruct (_ && _); [|discriminate]. injection E2 as <- <-. auto. }
    destruct Ez as [-> ->]. clear E2.
    apply bind_ok in E1. destruct E1 as (? & s3 & E3 & E1). apply require_ok in E3. destruct E3 as [S1 ->].
    apply bind_ok in E1. destruct E1 as (? & s3 & E3 & E1). apply require_ok in E3. destruct E3 as [S2 ->].
    apply bind_ok in E1. destruct E1 as (? & s3 & E3 & E1). apply require_ok in E3. destruct E3 as [S3 ->].
    apply bind_ok in E1. destruct E1 as (? & s3 & E3 & E1). apply require_ok in E3. destruct E3 as [S4 ->].
    injection E1 as <- <- <-.
    apply bind_ok in E. destruct E as (b & s2 & E2 & E).
    apply bind_ok in E. destruct E as (? & s3 & E3 & E). injection E as <- <-. cbn [s_za s_awr s_mt s_body].
    split; [split; [intros Ck; rewrite Ck in S4; lia|]|].
    2:{ exists s2. split; [exact E2|]. eapply rd_SEND_sound; eauto. }
    split; [reflexivity|]. split; [reflexivity|]. split; [reflexivity|].
    split; [lia|]. split; [apply rlt_zero; destruct (rlt _ _); auto; discriminate|].
    split; [unfold k_mt; intros K; rewrite K in *; lia|].
    split; [eapply (cw_post _ _ _ _ _ Hc); eauto|]. exact (Hfor _ _ _ _ _ _ E2).
  Qed.
  Lemma bodyw_section : section_core k rep inv.
  Proof.
    split; [|intros h mat s x s' E; exact (proj1 (section_sound _ _ _ _ _ E))].
    intros x mat Hm G N R I. destruct (section_round_trip x mat Hm G N R I) as (body & A & L & Rd).
    exists body. split; [exact A|]. split; [exact L|]. intros rest ln. rewrite Rd. do 2 f_equal. apply Z.add_assoc.
  Qed.
  Lemma body_safe : (forall h, std3 (k_read k h)) -> section_safe k.
  Proof.
    intros Hs h mat s Hz. change (never_other (rd_section k h mat s)) with
      (match rd_section k h mat s with Ok _ _ => True | Err e _ => is_std e = true | UB => False end).
    revert s. change (only_std (rd_section k h mat)). unfold rd_section. apply only_std_bind.
    - unfold sec_head. apply only_std_bind.
      + unfold head_za32. cbv zeta. unfold int32 in Hz. destruct (Z.leb_spec (-2147483648) (round_int (c1 (sbase h)))); [|lia]. destruct (Z.ltb_spec (round_int (c1 (sbase h))) 2147483648); [|lia]. apply only_std_ret.
      + intros za. repeat (apply only_std_bind; [apply only_std_require|intros]). apply only_std_ret.
    - intros [za awr]. apply only_std_bind; [apply Hs|intros b]. apply only_std_bind; [|intros; apply only_std_ret].
      unfold rd_SEND. apply only_std_bind; [apply only_std_sdiv|intros]. repeat (apply only_std_bind; [apply only_std_require|intros]). apply only_std_require.
  Qed.
End Generic.
(** what is read depends on the lines consumed only *)
Lemma splits_same ls : forall b r t, splits b ls r -> (forall i, (i < length ls)%nat -> nth_line t i = nth_line b i) -> splits t ls (drop_lines (length ls) t).
Proof.
  induction ls as [|l ls IH]; intros b r t H K; [reflexivity|]. cbn [splits] in *. destruct H as (b' & E & H). cbn [length drop_lines].
  exists (snd (next_line t)). split.
  - specialize (K 0%nat ltac:(cbn; lia)). cbn [nth_line] in K. rewrite E in K. destruct (next_line t). cbn in *. now subst.
  - apply (IH b' r); [exact H|]. intros i Hi. specialize (K (S i) ltac:(cbn; lia)). cbn [nth_line] in K. now rewrite E in K.
Qed.
Lemma consumes_sdiv : consumes (fun _ => True) rd_sdiv.
Proof.
  unfold rd_sdiv. apply consumes_on_err. intros s a s' E. destruct (inl_any s) as (l & b & N & J).
  apply bind_ok in E. destruct E as (c & s1 & E1 & E). destruct (inline_base _ _ _ _ _ _ J E1) as [[J1 L1] D1].
  apply bind_ok in E. destruct E as ([[m f] t] & s2 & E2 & E). destruct (rd_tail_cols _ _ _ _ _ _ _ J1 E2) as (T & B2 & L2).
  apply bind_ok in E. destruct E as (u1 & s3 & E3 & E). apply require_ok in E3. destruct E3 as [R1 ->].
  apply bind_ok in E. destruct E as (u2 & s4 & E4 & E). apply require_ok in E4. destruct E4 as [R2 ->].
  apply bind_ok in E. destruct E as (u3 & s5 & E5 & E). apply require_ok in E5. destruct E5 as [R3 ->]. injection E as <- <-.
  exists [l]. cbn [splits]. split; [exists b; auto|]. split; [cbn [length]; lia|]. split; [auto|].
  intros b' r ln (b1 & N1 & <-). destruct (D1 b1 (mkst b' ln)) as (t1 & T1 & I1 & M1); [exact N1|]. unfold bind. rewrite T1.
  rewrite (rd_tail_again _ _ _ _ _ _ T I1). rewrite R1, R2, R3. cbn [line] in M1. rewrite M1. reflexivity.
Qed.
Lemma consumes_SEND mat mf : consumes (fun _ => True) (rd_SEND mat mf).
Proof.
  unfold rd_SEND. apply consumes_bind; [apply consumes_sdiv|intros d]. apply consumes_bind; [apply consumes_require|intros].
  apply consumes_bind; [apply consumes_require|intros]. apply consumes_require.
Qed.
Lemma consumes_section {B} (k : skind B) h mat : (forall mat mf mt, consumes (tail_is mat mf mt) (k_read k h mat mf mt)) -> consumes (fun _ => True) (rd_section k h mat).
Proof.
  intros H. unfold rd_section. apply consumes_bind; [|intros [za awr]].
  - unfold sec_head. apply consumes_bind; [apply consumes_lift|intros za]. repeat (apply consumes_bind; [apply consumes_require|intros]). apply consumes_ret.
  - apply consumes_bind; [|intros b]. { eapply consumes_weaken; [|apply H]. auto. }
    apply consumes_bind; [apply consumes_SEND|intros; apply consumes_ret].
Qed.
Lemma bodym_section {B} (k : skind B) rep inv : body_codm k rep inv -> section_rt k rep inv.
Proof.
  intros H. assert (E0 : endf_real rzero) by (left; split; reflexivity).
  destruct (bodyw_section k rep inv (body_weaken _ _ _ H)) as [H1 H2]. split; [exact H1| | |].
  3:{ intros h mat s x s' E n t ln K. destruct (section_sound k rep inv (body_weaken _ _ _ H) _ _ _ _ _ E) as (_ & s1 & E1 & _ & E2).
      destruct (co_consumes _ _ _ _ _ (bm_cod _ _ _ H h rzero E0) _ _ _ _ _ _ E1) as (ls & S & L & _ & D).
      assert (X : n = Z.of_nat (length ls)) by (unfold n; lia). rewrite X in *. rewrite Nat2Z.id.
      apply D, (splits_same ls (buf s) (buf s1)); [exact S|]. intros i Hi. apply K. lia. }
  2:{ intros h mat s x s' E n t ln K. assert (C := consumes_section k h mat (co_consumes _ _ _ _ _ (bm_cod _ _ _ H h rzero E0))).
      destruct (C _ _ _ E) as (ls & S & L & _ & D). assert (n = Z.of_nat (length ls)) by (unfold n; lia). rewrite H0 in *. rewrite Nat2Z.id.
      apply D, (splits_same ls (buf s) (buf s')); [exact S|]. intros i Hi. apply K. lia. }
  intros h mat s x s' E.
  destruct (H2 h mat s x s' E) as (A1 & A2 & A3 & A4 & A5 & A6 & A7 & A8 & A9). do 9 (split; [assumption|]).
  destruct (section_sound k rep inv (body_weaken _ _ _ H) _ _ _ _ _ E) as (_ & s1 & E1 & E2). exists s1. split; [|exact E2].
  eapply consumes_consumed; [apply (co_consumes _ _ _ _ _ (bm_cod _ _ _ H h rzero E0))|exact E1].
Qed.
Lemma section_rt_core {B} (k : skind B) rep inv : section_rt k rep inv -> section_core k rep inv.
Proof.
  intros [H1 H2 _ _]. split; [exact H1|]. intros h mat s x s' E.
  destruct (H2 h mat s x s' E) as (A1 & A2 & A3 & A4 & A5 & A6 & A7 & A8 & A9 & _). do 8 (split; [assumption|]). assumption.
Qed.
Lemma section_rt_lines {B} (k : skind B) rep inv whole : section_rt k rep inv -> section_lines k whole.
Proof.
  intros [_ H2] h mat s x s' E _. destruct (H2 h mat s x s' E) as (A1 & A2 & A3 & A4 & A5 & A6 & A7 & A8 & A9 & A10). exact A10.
Qed.
Lemma body_section {B} (k : skind B) rep inv : body_cod k rep inv -> section_rt k rep inv.
Proof. intros H. apply bodym_section. now apply bodym. Qed.
Lemma body_codec {B} (k : skind B) rep inv : body_cod k rep inv -> (forall h, std3 (k_read k h)) -> section_codec k rep inv.
Proof. intros H Hs. split; [now apply body_section|now apply body_safe]. Qed.
