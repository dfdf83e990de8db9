(** Sec32Safe.v -- reading File 32: no undefined behaviour and whole lines only, on tame texts. *)
From Coq Require Import ZifyBool ZifyNat.
From Verif Require Import Base Disco DiscoProofs Records RecordProofs RecordRT RecordSound Layout
  RealRound RealProofs Spec Normal LineFacts PropRecords3 Sections SecSpec Codec SectionProofs SecKit CodecKit
  Sec9 Sec9Spec Sec9Proofs Sec4Spec Sec4Proofs Sec6 Sec6Spec Sec6Proofs Sec6Safe Sec33 Sec33Spec Sec33Proofs Sec33Safe Sec8 Sec8Spec Sec8Proofs
  Sec7 Sec7Spec Sec7Proofs Sec2 Sec2Spec Sec2Proofs Sec32 Sec32Corr Sec32Spec Sec32Proofs.
Open Scope Z_scope.

(** ** an INTG record on a complete line is that line *)
Lemma advance_line n s u s' : advance n s = Ok u s' -> line s' = line s.
Proof. unfold advance. destruct (n <=? length (buf s))%nat; [|discriminate]. intros E. inversion E. reflexivity. Qed.
Lemma rd_n_int_line w n : forall s ks s', rd_n (rd_int w) n s = Ok ks s' -> line s' = line s.
Proof.
  induction n as [|n IH]; intros s ks s' E; [inversion E; reflexivity|]. cbn [rd_n] in E. apply bind_ok in E as (x & s1 & E1 & E). apply bind_ok in E as (xs & s2 & E2 & E).
  inversion E; subst. rewrite (IH _ _ _ E2). destruct (inl_any s) as (l & b & _ & I0). apply (rd_int_inl _ _ _ _ _ _ _ I0 E1).
Qed.
Lemma intg_line nd mat mf mt s g s' : (2 <= nd <= 6)%nat -> (75 <= length (nth_line (buf s) 0))%nat ->
  rd_intg nd (intg_cap nd) mat mf mt s = Ok g s' ->
  next_line (buf s) = (nth_line (buf s) 0, buf s') /\ tail_is mat mf mt (nth_line (buf s) 0) /\ line s' = line s + 1.
Proof.
  intros Hn Hl E. destruct (next_line (buf s)) as [l b] eqn:Nl.
  cbn [nth_line] in *. rewrite Nl in *. cbn [fst] in *.
  assert (I0 : inl 0 l b s) by now apply inl_start.
  unfold rd_intg in E. apply on_err_ok in E.
  apply bind_ok in E as (i & s1 & E1 & E). destruct (rd_int_inl _ _ _ _ _ _ _ I0 E1) as (_ & I1 & L1).
  apply bind_ok in E as (j & s2 & E2 & E). destruct (rd_int_inl _ _ _ _ _ _ _ I1 E2) as (_ & I2 & L2).
  assert (W : (0 + 5 + 5 + intg_lead nd + (nd + 1) * intg_cap nd + intg_gap nd = 66 /\ intg_gap nd <= 5 /\ intg_lead nd <= 1)%nat).
  { destruct nd as [|[|[|[|[|[|[|n]]]]]]]; cbn; lia. }
  apply bind_ok in E as (u3 & s3 & E3 & E). assert (I3 : inl (0 + 5 + 5 + intg_lead nd) l b s3) by (eapply advance_inl; eauto; lia). apply advance_line in E3.
  apply bind_ok in E as (ks & s4 & E4 & E). assert (I4 := rd_n_int_inl l b (nd + 1) (intg_cap nd) _ _ _ _ I3 E4). apply rd_n_int_line in E4.
  apply bind_ok in E as (u5 & s5 & E5 & E). assert (I5 : inl 66 l b s5).
  { replace 66%nat with (0 + 5 + 5 + intg_lead nd + (nd + 1) * intg_cap nd + intg_gap nd)%nat by lia. eapply advance_inl; eauto. lia. }
  apply advance_line in E5. apply bind_ok in E as (r & s6 & E6 & E).
  assert (s6 = s5). { unfold lift in E6. destruct (make_intg _ _ _ _); [|discriminate..]. inversion E6. reflexivity. } subst s6.
  apply bind_ok in E as (v & s7 & E7 & E). destruct (verify_cols _ _ _ _ _ _ _ _ I5 E7) as (K & B & L). inversion E; subst. split; [reflexivity|]. split; [exact K|lia].
Qed.

(** ** the lines consumed between two states *)
Definition moved (P : text -> Prop) (s s' : st) : Prop :=
  exists ls, splits (buf s) ls (buf s') /\ line s' = line s + Z.of_nat (length ls) /\ Forall P ls.
Lemma consumes_moved {A} P (m : M A) s a s' : consumes P m -> m s = Ok a s' -> moved P s s'.
Proof. intros H E. destruct (H _ _ _ E) as (ls & S & L & F & _). exists ls. auto. Qed.
Lemma moved_refl P s : moved P s s.
Proof. exists []. split; [reflexivity|]. split; [cbn; lia|constructor]. Qed.
Lemma moved_trans P s1 s2 s3 : moved P s1 s2 -> moved P s2 s3 -> moved P s1 s3.
Proof.
  intros (l1 & S1 & L1 & F1) (l2 & S2 & L2 & F2). exists (l1 ++ l2). split; [eapply splits_app; eauto|].
  rewrite app_length, Forall_app. split; [lia|auto].
Qed.
Definition at_line (text : text) (s : st) : Prop := exists k, buf s = drop_lines k text.
Lemma drop_lines_add a : forall b t, drop_lines a (drop_lines b t) = drop_lines (b + a) t.
Proof. induction b as [|b IH]; intros t; [reflexivity|]. cbn [drop_lines Nat.add]. apply IH. Qed.
Lemma moved_at text P s s' : at_line text s -> moved P s s' -> at_line text s'.
Proof. intros [k E] (ls & S & _). exists (k + length ls)%nat. rewrite <- (splits_drop _ _ _ S), E. apply drop_lines_add. Qed.

(** ** readers on the lines of a text: no undefined behaviour, whole lines, and what holds after *)
Section Walk.
  Variables (text : text) (mat mf mt : Z).
  Definition walk {A} (Pre Post : st -> Prop) (m : M A) : Prop := forall s, at_line text s -> Pre s ->
    never_other (m s) /\ forall a s', m s = Ok a s' -> moved (tail_is mat mf mt) s s' /\ Post s'.
  Definition anywhere (s : st) : Prop := True.
  Lemma walk_std {A} Pre (m : M A) : only_std m -> consumes (tail_is mat mf mt) m -> walk Pre anywhere m.
  Proof. intros H K s _ _. split; [exact (H s)|]. intros a s' E. split; [exact (consumes_moved _ _ _ _ _ K E)|exact I]. Qed.
  Lemma walk_bind {A B} Pre Mid Post (m : M A) (f : A -> M B) : walk Pre Mid m -> (forall a, walk Mid Post (f a)) -> walk Pre Post (bind m f).
  Proof.
    intros H K s L P. destruct (H s L P) as [N Q]. split.
    - apply never_bind; [exact N|]. intros a s' E. destruct (Q a s' E) as [Mv P']. apply K; [eapply moved_at; eauto|exact P'].
    - intros b s2 E. apply bind_ok in E. destruct E as (a & s' & E1 & E2). destruct (Q a s' E1) as [Mv P']. destruct (K a s' (moved_at _ _ _ _ L Mv) P') as [_ R].
      destruct (R b s2 E2) as [Mv2 P2]. split; [eapply moved_trans; eauto|exact P2].
  Qed.
  Lemma walk_weaken {A} (Pre Pre' Post Post' : st -> Prop) (m : M A) : walk Pre Post m -> (forall s, Pre' s -> Pre s) -> (forall s, Post s -> Post' s) -> walk Pre' Post' m.
  Proof. intros H K1 K2 s L P. destruct (H s L (K1 s P)) as [N Q]. split; [exact N|]. intros a s' E. destruct (Q a s' E). auto. Qed.
  Lemma walk_any {A} Pre Post (m : M A) : walk Pre Post m -> walk Pre anywhere m.
  Proof. intros H. apply (walk_weaken _ _ _ _ _ H); [auto|]. intros; exact I. Qed.
  Lemma walk_ret {A} P (a : A) : walk P P (ret a).
  Proof. intros s _ H. split; [exact I|]. intros x s' E. inversion E; subst. split; [apply moved_refl|exact H]. Qed.
  Lemma walk_throw {A} Pre Post : walk Pre Post (throw EStd : M A).
  Proof. intros s _ _. split; [reflexivity|]. intros x s' E. discriminate. Qed.
  Lemma walk_lift {A} P (o : out A) : (forall s, never_other (lift o s)) -> walk P P (lift o).
  Proof.
    intros H s _ K. split; [apply H|]. intros a s' E. unfold lift in E. destruct o; [|discriminate..]. inversion E; subst. split; [apply moved_refl|exact K].
  Qed.
  Lemma walk_rd_n {A} P (m : M A) n : walk P P m -> walk P P (rd_n m n).
  Proof.
    intros H. induction n as [|n IH]; [apply walk_ret|]. cbn [rd_n]. eapply walk_bind; [exact H|intros a]. eapply walk_bind; [exact IH|intros l]. apply walk_ret.
  Qed.
  Lemma walk_all {A} P (rd : Z -> Z -> Z -> M A) n : walk P P (rd mat mf mt) -> walk P P (rd_all rd n mat mf mt).
  Proof.
    intros H. unfold rd_all, rd_sequence. cbv zeta. eapply (walk_bind P P).
    - unfold require. destruct (negb _); [apply walk_ret|apply walk_throw].
    - intros _. now apply walk_rd_n.
  Qed.
  Lemma walk_peek {B} Pre Post (f : cont -> M B) : (forall c, walk Pre Post (f c)) -> walk Pre Post (c <- peek_cont mat mf mt ;; f c).
  Proof.
    intros H s L P. split.
    - apply never_bind.
      + assert (N := std_cont mat mf mt s). unfold peek_cont. destruct (rd_cont mat mf mt s); [exact I|exact N|exact N].
      + intros c s' E. apply peek_ok in E. destruct E as [-> _]. now apply H.
    - intros b s2 E. apply bind_ok in E. destruct E as (c & s' & E1 & E2). apply peek_ok in E1. destruct E1 as [-> _]. exact (proj2 (H c s L P) b s2 E2).
  Qed.
  Lemma walk_cont Pre : walk Pre anywhere (rd_cont mat mf mt).
  Proof. apply walk_std; [apply std_cont|apply cod_cont]. Qed.
End Walk.

Section Tame.
  Variables (text : text) (mat : Z).
  Hypothesis Tm : tame32 text.
  Notation LC := (lines_complete mat 32 151).
  Notation W := (walk text mat 32 151).

  Lemma list_facts s l s' : at_line text s -> rd_list mat 32 151 s = Ok l s' -> tame_list32 l /\ LC s'.
  Proof. intros [k L] E. destruct s as [b ln]. cbn [buf] in L. subst b. exact (Tm mat k ln l s' E). Qed.
  Lemma walk_list_then {B} Pre (f : listr -> M B) :
    (forall l s, tame_list32 l -> never_other (f l s)) -> (forall l s b s', f l s = Ok b s' -> s' = s) -> W Pre LC (l <- rd_list mat 32 151 ;; f l).
  Proof.
    intros H K s L P. split.
    - apply never_bind; [apply never_std, std_list|]. intros l s' E. apply H. exact (proj1 (list_facts _ _ _ L E)).
    - intros b s2 E. apply bind_ok in E. destruct E as (l & s' & E1 & E2). apply K in E2. subst s2.
      split; [exact (consumes_moved _ _ _ _ _ (co_consumes _ _ _ _ _ cod_list mat 32 151) E1)|exact (proj2 (list_facts _ _ _ L E1))].
  Qed.
  Lemma walk_list Pre : W Pre LC (rd_list mat 32 151).
  Proof.
    intros s L P. split; [apply never_std, std_list|]. intros l s' E. split; [exact (consumes_moved _ _ _ _ _ (co_consumes _ _ _ _ _ cod_list mat 32 151) E)|exact (proj2 (list_facts _ _ _ L E))].
  Qed.
  Lemma walk_checked Pre chk : (forall l s, tame_list32 l -> never_other (lift (chk l) s)) -> W Pre LC (rd_checked chk mat 32 151).
  Proof.
    intros H. apply walk_list_then.
    - intros l s T. apply never_bind; [now apply H|]. intros; exact I.
    - intros l s b s' E. apply bind_ok in E. destruct E as (u & s1 & E1 & E2). unfold lift in E1. destruct (chk l); [|discriminate..]. inversion E1; subst. inversion E2. reflexivity.
  Qed.
  Lemma walk_list_if Pre chk : W Pre LC (rd_list_if chk mat 32 151).
  Proof.
    apply walk_list_then.
    - intros l s T. unfold require. destruct (chk l); [exact I|reflexivity].
    - intros l s b s' E. unfold require in E. destruct (chk l); [|discriminate]. inversion E. reflexivity.
  Qed.
  Lemma walk_mk {B} Pre (mk : listr -> out B) : (forall l s, tame_list32 l -> never_other (lift (mk l) s)) -> W Pre LC (l <- rd_list mat 32 151 ;; lift (mk l)).
  Proof.
    intros H. apply walk_list_then; [exact H|]. intros l s b s' E. unfold lift in E. destruct (mk l); [|discriminate..]. inversion E. reflexivity.
  Qed.
  Lemma tame_counts l : tame_list32 l -> 0 <= i32 (npl l) < 2 ^ 30 /\ Z.abs (i32 (lN2 l)) < 2 ^ 13 /\ (lL2 l = 6 -> i32 (lN2 l) <> 0).
  Proof.
    intros [H1 H2]. unfold npl. fold (len (lB l)). assert (P := len_nonneg (lB l)). rewrite i32_id by (unfold int32; lia). split; [lia|]. apply H2, as_int_i32.
  Qed.
  Lemma tame_is_cov l : tame_list32 l -> tame_cov l.
  Proof. intros [H1 H2]. split; [exact H1|]. intros n A. destruct (H2 n A). split; [lia|assumption]. Qed.
  Lemma never_rows m l s : 0 <= m <= 18 -> tame_list32 l -> never_other (lift (check_rows m l) s).
  Proof.
    intros Hm T. apply tame_counts in T. unfold check_rows. apply never_lift_bind; [apply never_ensure|intros _]. apply never_lift_bind; [apply never_ensure|intros _].
    apply never_op; [unfold int32; nia|apply never_ensure].
  Qed.
  Lemma never_triangle l s : tame_list32 l -> never_other (lift (check_triangle l) s).
  Proof.
    intros T. apply tame_counts in T. destruct T as (A & B & _). unfold check_triangle. apply never_lift_bind; [apply never_ensure|intros _]. apply never_lift_bind; [apply never_ensure|intros _].
    apply never_lift_bind; [|intros; apply never_ensure]. unfold triangle. assert (E1 : int_op (i32 (lN2 l) + 1) = Val (i32 (lN2 l) + 1)) by (apply int_op_val; split; [reflexivity|unfold int32; lia]).
    rewrite E1. cbn [obind]. assert (E2 : int_op (i32 (lN2 l) * (i32 (lN2 l) + 1)) = Val (i32 (lN2 l) * (i32 (lN2 l) + 1))) by (apply int_op_val; split; [reflexivity|unfold int32; nia]).
    rewrite E2. exact I.
  Qed.
  Lemma never_short l s : tame_list32 l -> never_other (lift (check_short l) s).
  Proof.
    intros T. apply tame_counts in T. destruct T as (A & B & _). unfold check_short. unfold ensure at 1. destruct (negb _) eqn:E0; [|reflexivity]. cbn [obind].
    unfold ensure at 1. destruct (negb ((i32 (lL1 l) <? 1) || _)) eqn:E1; [|reflexivity]. cbn [obind]. apply never_lift_bind; [apply never_ensure|intros _].
    assert (P : 0 <= i32 (lL1 l) <= 5) by lia. 
    set (m := i32 (lL1 l)) in *. set (n := i32 (lN2 l)) in *. assert (Q : Z.abs (m * n) < 5 * 2 ^ 13) by nia. set (b := m * n) in *.
    apply never_op; [unfold int32; lia|]. apply never_op; [unfold int32; lia|]. apply never_op; [unfold int32; lia|]. apply never_op; [unfold int32; nia|].
    apply never_op; [|apply never_ensure]. assert (R : Z.abs (Z.quot (b * (b + 1)) 2) <= 2 ^ 30) by (assert (K := Z.quot_rem' (b * (b + 1)) 2); assert (K2 := Z.rem_bound_abs (b * (b + 1)) 2); nia). unfold int32; lia.
  Qed.
  Lemma never_independent l s : tame_list32 l -> never_other (lift (check_independent l) s).
  Proof. intros T. apply tame_counts in T. unfold check_independent. apply never_op; [unfold int32; lia|apply never_ensure]. Qed.
  Lemma never_mk_long l s : tame_list32 l -> never_other (lift (mk_long l) s).
  Proof.
    intros T. assert (C := tame_is_cov l T). assert (N := tame_npl l C). destruct (tame_n2 l C) as [N2 _]. unfold mk_long. destruct (_ && _).
    - apply never_lift_bind; [|intros; exact I]. unfold check_pairs. destruct (lb_lt _ _); [|reflexivity]. unfold size_tab. apply never_op; [unfold int32; lia|apply never_ensure].
    - destruct (_ =? 5); [|reflexivity]. apply never_lift_bind; [|intros; exact I]. unfold check_square. destruct (_ =? 5); [|reflexivity]. now apply never_square.
  Qed.
  Lemma walk_explicit Pre : W Pre LC (rd_explicit mat 32 151).
  Proof. apply walk_mk. intros l s T. apply never_mk_explicit. now apply tame_is_cov. Qed.
  Lemma walk_long Pre : W Pre LC (rd_long mat 32 151).
  Proof. apply walk_mk. intros l s T. now apply never_mk_long. Qed.

  (** *** the correlation matrix *)
  Lemma walk_intgs nd : (2 <= nd <= 6)%nat -> forall n s, (forall i gs s2, (i < n)%nat -> rd_n (rd_intg nd (intg_cap nd) mat 32 151) i s = Ok gs s2 -> (75 <= length (nth_line (buf s2) 0))%nat) ->
    forall gs s', rd_n (rd_intg nd (intg_cap nd) mat 32 151) n s = Ok gs s' -> moved (tail_is mat 32 151) s s'.
  Proof.
    intros Hn. induction n as [|n IH]; intros s H gs s' E; [inversion E; apply moved_refl|]. cbn [rd_n] in E. apply bind_ok in E as (g & s1 & E1 & E). apply bind_ok in E as (gs' & s2 & E2 & E).
    inversion E; subst. assert (H0 := H 0%nat [] s ltac:(lia) eq_refl). destruct (intg_line _ _ _ _ _ _ _ Hn H0 E1) as (N & T & L).
    apply (moved_trans _ s s1); [exists [nth_line (buf s) 0]|apply (IH s1) with (gs := gs'); [|exact E2]].
    - split; [exists (buf s1); split; [exact N|reflexivity]|]. split; [cbn [length]; lia|]. constructor; [exact T|constructor].
    - intros i gs2 s3 Hi E3. apply (H (Datatypes.S i) (g :: gs2) s3); [lia|]. cbn [rd_n]. unfold bind. rewrite E1, E3. reflexivity.
  Qed.
  Lemma never_make_corr a b c d e s : never_other (lift (make_corr a b c d e) s).
  Proof. unfold make_corr. apply never_lift_bind; [apply never_ensure|intros _]. apply never_lift_bind; [apply never_ensure|intros _]. exact I. Qed.
  Lemma lift_stay {A} (o : out A) s a s' : lift o s = Ok a s' -> s' = s.
  Proof. unfold lift. destruct o; [|discriminate..]. intros E. inversion E. reflexivity. Qed.
  Lemma walk_corr : W LC anywhere (rd_corr mat 32 151).
  Proof.
    intros s L P.
    assert (K : forall c s1, rd_cont mat 32 151 s = Ok c s1 -> digits_ok (u32 (l1 c)) = true -> forall i gs s2, (i < Z.to_nat (u32 (n1 c)))%nat ->
      rd_n (rd_intg (Z.to_nat (u32 (l1 c))) (intg_cap (Z.to_nat (u32 (l1 c)))) mat 32 151) i s1 = Ok gs s2 -> (75 <= length (nth_line (buf s2) 0))%nat).
    { intros c s1 E D i gs s2 Hi E2. unfold digits_ok in D. assert (B := u32_range (n1 c)). assert (B1 := u32_range (l1 c)). apply (P c s1 (Z.to_nat (u32 (l1 c))) i gs s2 E); [|lia| |exact E2].
      - change (2 ^ 32) with 4294967296. fold (u32 (l1 c)). lia.
      - change (2 ^ 32) with 4294967296. fold (u32 (n1 c)). lia. }
    split.
    - unfold rd_corr. apply never_bind; [apply never_std, std_cont|]. intros c s1 E1. apply never_bind; [unfold require; destruct (digits_ok _); [exact I|reflexivity]|].
      intros [] s1' E2. unfold require in E2. destruct (digits_ok (u32 (l1 c))) eqn:D; [|discriminate]. inversion E2; subst s1'. cbv zeta. assert (Hd := D). unfold digits_ok in Hd.
      apply never_bind; [|intros; apply never_make_corr]. apply never_rd_n. intros i gs s2 Hi E3. apply C14_intg_complete_line; [lia|]. exact (K c s1 E1 D i gs s2 Hi E3).
    - intros x s' E. split; [|exact I]. unfold rd_corr in E. apply bind_ok in E as (c & s1 & E1 & E). apply bind_ok in E as ([] & s1' & E2 & E). unfold require in E2.
      destruct (digits_ok (u32 (l1 c))) eqn:D; [|discriminate]. inversion E2; subst s1'. cbv zeta in E. apply bind_ok in E as (gs & s2 & E3 & E). apply lift_stay in E. subst s'.
      apply (moved_trans _ s s1); [exact (consumes_moved _ _ _ _ _ (co_consumes _ _ _ _ _ cod_cont mat 32 151) E1)|]. assert (Hd := D). unfold digits_ok in Hd.
      apply (walk_intgs (Z.to_nat (u32 (l1 c))) ltac:(lia) _ s1 (K c s1 E1 D) gs s2 E3).
  Qed.

  (** *** everything else *)
  Lemma walk_when {A} (rd : Z -> Z -> Z -> M A) b Pre : (forall P, W P anywhere (rd mat 32 151)) -> W Pre anywhere (rd_when rd b mat 32 151).
  Proof.
    intros H. unfold rd_when. destruct b.
    - eapply walk_bind; [apply H|intros a]. apply walk_ret.
    - apply (walk_any text mat 32 151 Pre Pre). apply walk_ret.
  Qed.
  Lemma walk_dap P : W P anywhere (rd_dap mat 32 151).
  Proof. unfold rd_dap. eapply walk_bind; [apply walk_cont|intros c]. apply walk_ret. Qed.
  Lemma walk_dap_list P : W P anywhere (rd_list mat 32 151).
  Proof. apply (walk_any _ _ _ _ P LC). apply walk_list. Qed.
  Lemma walk_no_dap P : W P anywhere (rd_no_dap mat 32 151).
  Proof. apply walk_throw. Qed.
  Lemma walk_every {A} (rd : Z -> Z -> Z -> M A) n Pre : (forall P, W P LC (rd mat 32 151)) -> W Pre anywhere (rd_all rd n mat 32 151).
  Proof.
    intros H. apply (walk_weaken _ _ _ _ anywhere Pre anywhere anywhere); [|intros; exact I|auto]. apply walk_all. apply (walk_any _ _ _ _ anywhere LC). apply H.
  Qed.
  Lemma never_one_then {A B} (l : list A) (b : B) s : never_other (lift (let! u := at_least_one l in Val b) s).
  Proof. apply never_lift_bind; [apply never_ensure|intros; exact I]. Qed.
  Lemma walk_limited P : W P anywhere (rd_limited mat 32 151).
  Proof.
    unfold rd_limited. eapply walk_bind; [apply walk_cont|intros c]. eapply walk_bind; [apply walk_when, walk_dap|intros d].
    eapply walk_bind; [apply walk_every; intros Q; apply walk_checked; intros l s T; apply never_rows; [lia|exact T]|intros ls]. apply walk_lift. intros s. apply never_one_then.
  Qed.
  Lemma walk_short_rml P : W P LC (rd_short_rml mat 32 151).
  Proof.
    unfold rd_short_rml. eapply walk_bind; [apply walk_cont|intros c]. eapply walk_bind; [apply walk_every; intros Q; apply walk_list_if|intros gs].
    eapply walk_bind; [apply walk_checked; intros l s T; now apply never_triangle|intros m]. apply walk_ret.
  Qed.
  Lemma walk_general {D S} (rdD : Z -> Z -> Z -> M D) (rdS : Z -> Z -> Z -> M S) P :
    (forall P, W P anywhere (rdD mat 32 151)) -> (forall P, W P LC (rdS mat 32 151)) -> W P anywhere (rd_general rdD rdS mat 32 151).
  Proof.
    intros HD HS. unfold rd_general. eapply walk_bind; [apply walk_cont|intros c]. eapply walk_bind; [apply walk_when, HD|intros d]. eapply walk_bind; [apply walk_cont|intros h].
    eapply walk_bind; [apply walk_every, HS|intros ss]. eapply walk_bind; [apply walk_every; intros Q; apply walk_long|intros ls]. apply walk_lift. intros s.
    unfold make_general. repeat (apply never_lift_bind; [apply never_ensure|intros _]). exact I.
  Qed.
  Lemma walk_rml32 P : W P LC (rd_rml32 mat 32 151).
  Proof.
    unfold rd_rml32. eapply walk_bind; [apply walk_list_if|intros pp]. eapply (walk_bind _ _ _ _ LC LC LC).
    - apply walk_all. unfold rd_spin32. eapply walk_bind; [apply walk_list_if|intros ch]. eapply walk_bind; [apply walk_list_if|intros pa]. apply walk_ret.
    - intros gs. apply walk_lift. intros s. apply never_one_then.
  Qed.
  Lemma walk_compact {D U} (rdD : Z -> Z -> Z -> M D) (rdU : Z -> Z -> Z -> M U) P :
    (forall P, W P anywhere (rdD mat 32 151)) -> (forall P, W P LC (rdU mat 32 151)) -> W P anywhere (rd_compact rdD rdU mat 32 151).
  Proof.
    intros HD HU. unfold rd_compact. eapply walk_bind; [apply walk_cont|intros c]. eapply walk_bind; [apply walk_when, HD|intros d].
    eapply walk_bind; [apply HU|intros u]. eapply walk_bind; [apply walk_corr|intros m]. apply walk_ret.
  Qed.
  Lemma walk_unres32 P : W P anywhere (rd_unres32 mat 32 151).
  Proof.
    unfold rd_unres32. eapply walk_bind; [apply walk_cont|intros c]. eapply walk_bind; [apply walk_every; intros Q; apply walk_checked; intros l s T; now apply never_independent|intros ls].
    eapply walk_bind; [apply walk_checked; intros l s T; now apply never_triangle|intros m]. apply (walk_any _ _ _ _ LC LC). apply walk_ret.
  Qed.
  Lemma walk_uncertainties P : W P LC (rd_checked check_uncertainties mat 32 151).
  Proof. apply walk_checked. intros l s T. apply never_rows; [lia|exact T]. Qed.
  Lemma walk_shorts P : W P LC (rd_checked check_short mat 32 151).
  Proof. apply walk_checked. intros l s T. now apply never_short. Qed.
  Lemma walk_cparams lru lrf P : W P anywhere (rd_cparams lru lrf mat 32 151).
  Proof.
    unfold rd_cparams. apply walk_peek. intros c. unfold rd_cparams_of.
    destruct (lru =? 1).
    - destruct (i32 (l2 c) =? 0); [|destruct (i32 (l2 c) =? 1); [|destruct (i32 (l2 c) =? 2); [|apply walk_throw]]].
      + repeat (destruct (_ =? _) in |- *); try apply walk_throw; (eapply walk_bind; [apply walk_limited|intros x; apply walk_ret]).
      + destruct (lrf =? 1); [|destruct (lrf =? 2); [|destruct (lrf =? 3); [|destruct (lrf =? 7); [|apply walk_throw]]]].
        * eapply walk_bind; [apply walk_general; [apply walk_dap|apply walk_shorts]|intros x; apply walk_ret].
        * eapply walk_bind; [apply walk_general; [apply walk_dap|apply walk_shorts]|intros x; apply walk_ret].
        * eapply walk_bind; [apply walk_general; [apply walk_dap_list|apply walk_shorts]|intros x; apply walk_ret].
        * eapply walk_bind; [apply walk_general; [apply walk_no_dap|apply walk_short_rml]|intros x; apply walk_ret].
      + destruct (lrf =? 1); [|destruct (lrf =? 2); [|destruct (lrf =? 3); [|destruct (lrf =? 7); [|apply walk_throw]]]].
        * eapply walk_bind; [apply walk_compact; [apply walk_dap|apply walk_uncertainties]|intros x; apply walk_ret].
        * eapply walk_bind; [apply walk_compact; [apply walk_dap|apply walk_uncertainties]|intros x; apply walk_ret].
        * eapply walk_bind; [apply walk_compact; [apply walk_dap_list|apply walk_uncertainties]|intros x; apply walk_ret].
        * eapply walk_bind; [apply walk_compact; [apply walk_no_dap|apply walk_rml32]|intros x; apply walk_ret].
    - destruct (lru =? 2); [|apply walk_throw]. eapply walk_bind; [apply walk_unres32|intros x; apply walk_ret].
  Qed.
  Lemma walk_cradius nro P : W P anywhere (rd_cradius nro mat 32 151).
  Proof.
    unfold rd_cradius. destruct (nro =? 0); [apply (walk_any _ _ _ _ P P), walk_ret|]. destruct (nro =? 1); [|apply walk_throw].
    eapply walk_bind; [|intros t; apply walk_ret]. unfold rd_radcov. eapply walk_bind; [apply walk_cont|intros c]. apply walk_every. intros Q. apply walk_explicit.
  Qed.
  Lemma walk_crange P : W P anywhere (rd_crange mat 32 151).
  Proof.
    unfold rd_crange. eapply walk_bind; [apply walk_cont|intros c]. eapply walk_bind; [apply walk_cradius|intros o]. eapply walk_bind; [apply walk_cparams|intros p].
    apply walk_lift. intros s. unfold make_crange. destruct (crange_ok _ _ _); [exact I|reflexivity].
  Qed.
  Lemma walk_32 n : W anywhere anywhere (rd_32_151 n mat 32 151).
  Proof.
    unfold rd_32_151. eapply walk_bind; [apply walk_all|intros l; apply walk_lift; intros s; apply never_one_then].
    unfold rd_cisotope. eapply walk_bind; [apply walk_cont|intros c]. eapply walk_bind; [apply walk_all, walk_crange|intros rs]. apply walk_ret.
  Qed.
End Tame.

Lemma at_line_start t s : buf s = t -> at_line t s.
Proof. intros E. exists 0%nat. exact E. Qed.
Lemma safe_32 h mat s : int32 (round_int (c1 (sbase h))) -> tame32 (buf s) -> never_other (rd_section sec_32_151 h mat s).
Proof.
  intros Hz Tm. apply never_section_any; [exact Hz|]. cbn [sec_32_151 k_read k_mf]. change (k_rmt sec_32_151 h) with 151.
  apply (walk_32 (buf s) (k_rmat sec_32_151 h mat) Tm (n1 (sbase h)) s); [now apply at_line_start|exact I].
Qed.
Lemma lines_32 : section_lines sec_32_151 (fun _ t => tame32 t).
Proof.
  intros h mat s x s' E Tm. destruct (section_sound sec_32_151 _ _ body_32 _ _ _ _ _ E) as (_ & s1 & E1 & E2). exists s1. split; [|exact E2].
  cbn [sec_32_151 k_read k_mf] in E1. change (k_rmt sec_32_151 h) with 151 in *. 
  destruct (walk_32 (buf s) (k_rmat sec_32_151 h mat) Tm (n1 (sbase h)) s (at_line_start _ _ eq_refl) I) as [_ K]. destruct (K _ _ E1) as [(ls & S & L & F) _].
  exists (length ls). split; [symmetry; eapply splits_drop; eauto|]. split; [exact L|]. intros i Hi.
  destruct (nth_error ls i) as [l|] eqn:El; [|apply nth_error_None in El; lia].
  erewrite splits_nth by eauto. rewrite Forall_forall in F. apply F. eapply nth_error_In; eauto.
Qed.
