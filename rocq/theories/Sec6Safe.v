(** Sec6Safe.v -- reading Files 6 and 26 is not undefined behaviour on tame texts. *)
From Coq Require Import ZifyBool ZifyNat.
From Verif Require Import Base Disco DiscoProofs Records RecordProofs RecordRT RecordSound Layout
  RealRound RealProofs Spec Normal LineFacts Sections SecSpec Codec SectionProofs SecKit CodecKit
  Sec9 Sec9Spec Sec9Proofs Sec4 Sec4Spec Sec4Proofs Sec6 Sec6Spec Sec6Proofs.
Open Scope Z_scope.

(** never something other than an exception of the library, from a state *)
Lemma never_bind {A B} (m : M A) (f : A -> M B) s : never_other (m s) -> (forall a s', m s = Ok a s' -> never_other (f a s')) -> never_other (bind m f s).
Proof. intros H K. unfold bind. destruct (m s) as [a s'|e s'|]; [now apply K|exact H|exact H]. Qed.
Lemma never_std {A} (m : M A) s : only_std m -> never_other (m s).
Proof. intros H. exact (H s). Qed.
Lemma never_rd_n {A} (m : M A) : forall n s, (forall k ls s', (k < n)%nat -> rd_n m k s = Ok ls s' -> never_other (m s')) -> never_other (rd_n m n s).
Proof.
  induction n as [|n IH]; intros s H; [exact Logic.I|]. cbn [rd_n]. apply never_bind; [apply (H 0%nat [] s); [lia|reflexivity]|].
  intros a s1 E1. apply never_bind; [|intros; exact Logic.I]. apply IH. intros k ls s' L E. apply (H (Datatypes.S k) (a :: ls) s'); [lia|].
  cbn [rd_n]. unfold bind. rewrite E1, E. reflexivity.
Qed.
Lemma never_after {A} (m : M A) : forall n s, (forall s', after m s s' -> never_other (m s')) -> never_other (rd_n m n s).
Proof.
  induction n as [|n IH]; intros s H; [exact Logic.I|]. cbn [rd_n]. apply never_bind; [apply H, after_0|].
  intros a s1 E1. apply never_bind; [|intros; exact Logic.I]. apply IH. intros s' K. apply H. eapply after_S; eauto.
Qed.
Lemma rd_n_checked chk mat mf mt : forall k s ls s', rd_n (rd_checked chk mat mf mt) k s = Ok ls s' -> rd_n (rd_list mat mf mt) k s = Ok ls s'.
Proof.
  induction k as [|k IH]; intros s ls s' E; [exact E|]. cbn [rd_n] in *. unfold bind in *. unfold rd_checked at 1 in E. unfold bind in E.
  destruct (rd_list mat mf mt s) as [l s1|e s1|]; [|discriminate|discriminate]. unfold lift in E.
  destruct (chk l) as [[]|e|]; [|discriminate|discriminate]. cbn [ret] in E.
  destruct (rd_n (rd_checked chk mat mf mt) k s1) as [l' s2|e s2|] eqn:K; [|discriminate|discriminate]. rewrite (IH _ _ _ K). exact E.
Qed.
Lemma never_checked chk mat mf mt s : (forall l s', rd_list mat mf mt s = Ok l s' -> never_other (lift (chk l) s')) -> never_other (rd_checked chk mat mf mt s).
Proof.
  intros H. unfold rd_checked. apply never_bind; [apply never_std; apply std_list|]. intros l s' E. apply never_bind; [now apply H|]. intros; exact Logic.I.
Qed.
Lemma never_make {C} (t : tab2) (l : list C) s : never_other (lift (make_iseq no_more t l) s).
Proof. unfold make_iseq, no_more. destruct (_ =? 0); [reflexivity|]. destruct (negb _); [reflexivity|exact Logic.I]. Qed.
Lemma never_lists chk t n mat mf mt s : (forall k ls s3 l s4, Z.of_nat k < n -> rd_n (rd_list mat mf mt) k s = Ok ls s3 -> rd_list mat mf mt s3 = Ok l s4 -> never_other (lift (chk l) s4)) ->
  never_other ((l <- rd_while (rd_checked chk) n mat mf mt ;; lift (make_iseq no_more t l)) s).
Proof.
  intros H. apply never_bind; [|intros; apply never_make]. unfold rd_while. destruct (Z.ltb_spec n 0); [reflexivity|]. apply never_rd_n.
  intros k ls s3 L E. apply never_checked. intros l s4 E4. apply (H k ls s3 l s4); [lia| |exact E4]. eapply rd_n_checked. exact E.
Qed.

(** the checks *)
Lemma never_op z f s : int32 z -> never_other (lift (f z) s) -> never_other (lift (obind (int_op z) f : out unit) s).
Proof. intros I H. assert (E : int_op z = Val z) by (apply int_op_val; auto). rewrite E. exact H. Qed.
Lemma never_ensure b s : never_other (lift (ensure b) s).
Proof. unfold ensure. destruct b; [exact Logic.I|reflexivity]. Qed.
Lemma never_base1 l s : tame1 l -> never_other (lift (base1 l) s).
Proof.
  intros [D K]. unfold base1. apply drop_ok_spec in D. destruct D as [-> ->]. destruct (is_sorted _ _); [|reflexivity].
  destruct (K _ _ (as_int_i32 _) (as_int_i32 _)) as [K1 K2]. unfold size1. apply never_op; [exact K1|]. apply never_op; [exact K2|]. apply never_ensure.
Qed.
Lemma never_kalbach1 l s : tame1 l -> never_other (lift (kalbach1 l) s).
Proof.
  intros T. assert (B := never_base1 l s T). unfold kalbach1. destruct (base1 l) as [[]|e|]; cbn [obind]; [apply never_ensure|exact B|exact B].
Qed.
Lemma small_i32 l : small l -> -2 ^ 28 < i32 (lN2 l) < 2 ^ 28.
Proof. intros H. apply H, as_int_i32. Qed.
Lemma never_size_tab l s : small l -> never_other (lift (size_tab l) s).
Proof. intros H%small_i32. unfold size_tab. apply never_op; [unfold int32; lia|apply never_ensure]. Qed.
Lemma never_check2 l s : small l -> never_other (lift (check2 l) s).
Proof. intros H. unfold check2. destruct (_ =? 0); [apply never_ensure|]. destruct (_ || _); [now apply never_size_tab|reflexivity]. Qed.
Lemma never_check5 l s : small l -> never_other (lift (check5 l) s).
Proof.
  intros H. assert (K := small_i32 _ H). unfold check5, size_amp, size_leg.
  destruct (_ =? 1); [|destruct (_ =? 2); [apply never_op; [unfold int32; lia|apply never_ensure]|destruct (ltp5 _); [now apply never_size_tab|reflexivity]]].
  apply never_op; [unfold int32; lia|]. apply never_op; [unfold int32; lia|]. destruct (i32 (npl l) =? _); [exact Logic.I|].
  apply never_op; [unfold int32; lia|]. apply never_op; [unfold int32; lia|apply never_ensure].
Qed.

(** ** File 6 *)
Lemma never_law1_rec lang mat mf mt s : (forall l s', rd_list mat mf mt s = Ok l s' -> (lang = 1 \/ lang = 2 \/ 11 <= lang <= 15) -> tame1 l) ->
  never_other (rd_law1_rec lang mat mf mt s).
Proof.
  intros H. unfold rd_law1_rec. apply never_bind; [apply never_std, only_std_require|]. intros [] s0 E0. unfold require in E0. destruct (_ || _ || _); [|discriminate].
  injection E0 as <-. change (never_other (rd_checked (check1 lang) mat mf mt s)). apply never_checked. intros l s' E. unfold check1, lang_base.
  destruct ((lang =? 1) || ((11 <=? lang) && (lang <=? 15))) eqn:Q; [apply never_base1, (H _ _ E); lia|].
  destruct (Z.eqb_spec lang 2); [apply never_kalbach1, (H _ _ E); lia|exact Logic.I].
Qed.
Lemma law1_rec_list lang mat mf mt : forall k s ls s', rd_n (rd_law1_rec lang mat mf mt) k s = Ok ls s' -> rd_n (rd_list mat mf mt) k s = Ok ls s'.
Proof.
  intros k s ls s' E. destruct k as [|k]; [exact E|]. destruct (lang_base lang || (lang =? 2) || (lang =? 3)) eqn:Q.
  - assert (K : rd_law1_rec lang mat mf mt = rd_checked (check1 lang) mat mf mt) by (unfold rd_law1_rec; rewrite Q; reflexivity).
    rewrite K in E. eapply rd_n_checked. exact E.
  - cbn [rd_n] in E. unfold bind, rd_law1_rec in E. rewrite Q in E. discriminate.
Qed.
Section Tame.
  Variables (mat mf mt : Z) (s : st) (Tm : tame_product mat mf mt s).
  Lemma tame_at m s1 t s2 : rd_tab1 mat mf mt s = Ok m s1 -> rd_tab2 mat mf mt s1 = Ok t s2 ->
    forall k ls s3 l s4, announced t k -> rd_n (rd_list mat mf mt) k s2 = Ok ls s3 -> rd_list mat mf mt s3 = Ok l s4 ->
    (LAW m = 1 -> tL1 t = 1 \/ tL1 t = 2 \/ 11 <= tL1 t <= 15 -> tame1 l) /\ (LAW m = 2 \/ LAW m = 5 -> small l).
  Proof.
    intros E1 E2 k ls s3 l s4 L E3 E4.
    destruct (Tm m s1 t s2 k ls s3 l s4 E1 E2 L E3 E4) as [K1 K2]. rewrite !as_int_eq in *. unfold LAW. auto.
  Qed.
  Lemma never_product6 hmt : never_other (rd_product6 hmt mat mf mt s).
  Proof.
    unfold rd_product6. apply never_bind; [apply never_std, std_tab1|]. intros m s1 E1. apply never_bind; [|intros; exact Logic.I].
    assert (K := fun t s2 => tame_at m s1 t s2 E1). unfold rd_law6.
    destruct (elsewhere _); [apply never_std, only_std_bind; [apply only_std_require|intros; apply only_std_ret]|].
    destruct (LAW m =? 0); [exact Logic.I|].
    destruct (Z.eqb_spec (LAW m) 1) as [L|_].
    { apply never_bind; [|intros; exact Logic.I]. unfold rd_law1, rd_iseqw. apply never_bind; [apply never_std, std_tab2|]. intros t s2 E2.
      apply never_bind; [|intros; apply never_make]. unfold rd_while. destruct (Z.ltb_spec (tn2 t) 0); [reflexivity|]. apply never_rd_n. intros k ls s3 Lk E3.
      apply never_law1_rec. intros l s4 E4. apply (K t s2 E2 k ls s3 l s4); [left; unfold tn2 in *; lia|eapply law1_rec_list; exact E3|exact E4|exact L]. }
    destruct (Z.eqb_spec (LAW m) 2) as [L|_].
    { apply never_bind; [|intros; exact Logic.I]. unfold rd_law2, rd_iseqw. apply never_bind; [apply never_std, std_tab2|]. intros t s2 E2.
      apply never_lists. intros k ls s3 l s4 Lk E3 E4. apply never_check2. apply (K t s2 E2 k ls s3 l s4); auto; now left. }
    destruct (LAW m =? 3); [exact Logic.I|]. destruct (LAW m =? 4); [exact Logic.I|].
    destruct (Z.eqb_spec (LAW m) 5) as [L|_].
    { apply never_bind; [|intros; exact Logic.I]. unfold rd_law5, rd_iseqw. apply never_bind; [apply never_std, std_tab2|]. intros t s2 E2.
      apply never_lists. intros k ls s3 l s4 Lk E3 E4. apply never_check5. apply (K t s2 E2 k ls s3 l s4); auto; now left. }
    destruct (LAW m =? 6); [apply never_std, only_std_bind; [apply std_cont|intros; apply only_std_ret]|].
    destruct (LAW m =? 7); [apply never_std, only_std_bind; [apply std_iseq0, std_iseq0, std_tab1|intros; apply only_std_ret]|]. reflexivity.
  Qed.
  Lemma never_product26 : never_other (rd_product26 mat mf mt s).
  Proof.
    unfold rd_product26. apply never_bind; [apply never_std, std_tab1|]. intros m s1 E1. apply never_bind; [|intros; exact Logic.I].
    assert (K := fun t s2 => tame_at m s1 t s2 E1). unfold rd_law26.
    destruct (Z.eqb_spec (LAW m) 1) as [L|_].
    { apply never_bind; [|intros; exact Logic.I]. unfold rd_law1_26. apply never_bind; [apply never_std, std_tab2|]. intros t s2 E2.
      apply never_bind; [apply never_std, only_std_require|]. intros [] s2' Er. unfold require in Er. destruct (Z.eqb_spec (tL1 t) 1) as [L1|]; [|discriminate]. injection Er as <-.
      apply never_lists. intros k ls s3 l s4 Lk E3 E4. apply never_base1. apply (K t s2 E2 k ls s3 l s4); auto; now left. }
    destruct (Z.eqb_spec (LAW m) 2) as [L|_].
    { apply never_bind; [|intros; exact Logic.I]. unfold rd_law2_26, rd_iseq. apply never_bind; [apply never_std, std_tab2|]. intros t s2 E2.
      apply never_bind; [|intros; apply never_make]. unfold rd_sequence. cbv zeta. apply never_bind; [apply never_std, only_std_require|]. intros [] s2' Er. unfold require in Er.
      destruct (Z.ltb_spec (i32 (tn2 t)) 0); [discriminate|]. injection Er as <-. apply never_rd_n. intros k ls s3 Lk E3. apply never_checked. intros l s4 E4.
      unfold check_tab26. destruct (lang2 _); [|reflexivity]. apply never_size_tab. apply (K t s2 E2 k ls s3 l s4); [right; exists (i32 (tn2 t)); split; [apply as_int_i32|lia]|eapply rd_n_checked; exact E3|exact E4|auto].
    }
    destruct (LAW m =? 8); [apply never_std, only_std_bind; [apply std_tab1|intros; apply only_std_ret]|]. reflexivity.
  Qed.
End Tame.
Lemma never_section {B} (k : skind B) h mat s : int32 (round_int (c1 (sbase h))) -> k_chk k = true -> k_hm k = false ->
  (smat h = mat -> never_other (k_read k h mat (k_mf k) (k_rmt k h) s)) -> never_other (rd_section k h mat s).
Proof.
  intros Hz Hc Hh H. unfold rd_section. apply never_bind.
  - apply never_std. unfold sec_head. apply only_std_bind.
    + unfold head_za32. cbv zeta. unfold int32 in Hz. destruct (Z.leb_spec (-2147483648) (round_int (c1 (sbase h)))); [|lia]. destruct (Z.ltb_spec (round_int (c1 (sbase h))) 2147483648); [|lia]. apply only_std_ret.
    + intros za. repeat (apply only_std_bind; [apply only_std_require|intros]). apply only_std_ret.
  - intros [za awr] s' E. assert (Q : s' = s /\ smat h = mat).
    { revert E. unfold sec_head. rewrite Hc. intros E. apply bind_ok in E. destruct E as (za' & s2 & E2 & E).
      assert (s2 = s) by (unfold lift in E2; destruct (head_za32 h); [injection E2 as _ <-; reflexivity|discriminate|discriminate]). subst s2.
      do 4 (apply bind_ok in E; destruct E as (? & ? & E3 & E); apply require_ok in E3; destruct E3 as [?S ->]).
      injection E as _ _ <-. split; [reflexivity|lia]. }
    destruct Q as [-> Q].
    assert (E2 : k_rmat k h mat = mat) by (unfold k_rmat; rewrite Hh; reflexivity). rewrite E2. apply never_bind; [now apply H|].
    intros b s1 _. apply never_std. apply only_std_bind; [|intros; apply only_std_ret].
    unfold rd_SEND. apply only_std_bind; [apply only_std_sdiv|intros]. repeat (apply only_std_bind; [apply only_std_require|intros]). apply only_std_require.
Qed.
Lemma safe_6 h mat s : int32 (round_int (c1 (sbase h))) -> tame6 (smat h) (smt h) (buf s) -> never_other (rd_section sec_6 h mat s).
Proof.
  intros Hz Tm. apply never_section; [exact Hz|reflexivity|reflexivity|]. intros E. subst mat. cbn [sec_6 k_read k_mf]. change (k_rmt sec_6 h) with (smt h).
  unfold rd_body6. apply never_bind; [|intros; exact Logic.I]. unfold rd_all, rd_sequence. cbv zeta. apply never_bind; [apply never_std, only_std_require|].
  intros [] s1 E. assert (s1 = s) by (unfold require in E; destruct (negb _); [injection E as <-; reflexivity|discriminate]). subst s1.
  apply never_after. intros s1 F. apply never_product6. destruct s as [b ln]. exact (Tm ln s1 F).
Qed.
Lemma safe_26 h mat s : int32 (round_int (c1 (sbase h))) -> tame26 (smat h) (smt h) (buf s) -> never_other (rd_section sec_26 h mat s).
Proof.
  intros Hz Tm. apply never_section; [exact Hz|reflexivity|reflexivity|]. intros E. subst mat. cbn [sec_26 k_read k_mf]. change (k_rmt sec_26 h) with (smt h).
  unfold rd_all, rd_sequence. cbv zeta. apply never_bind; [apply never_std, only_std_require|].
  intros [] s1 E. assert (s1 = s) by (unfold require in E; destruct (negb _); [injection E as <-; reflexivity|discriminate]). subst s1.
  apply never_after. intros s1 F. apply never_product26. destruct s as [b ln]. exact (Tm ln s1 F).
Qed.
