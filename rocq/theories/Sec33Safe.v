(** Sec33Safe.v -- reading covariances is not undefined behaviour on tame texts. *)
From Coq Require Import ZifyBool ZifyNat.
From Verif Require Import Base Disco DiscoProofs Records RecordProofs RecordRT RecordSound Layout
  RealRound RealProofs Spec Normal LineFacts Sections SecSpec Codec SectionProofs SecKit CodecKit
  Sec9 Sec9Spec Sec9Proofs Sec6 Sec6Spec Sec6Proofs Sec6Safe Sec33 Sec33Spec Sec33Proofs.
Open Scope Z_scope.

Lemma never_all {A} (rd : Z -> Z -> Z -> M A) n mat mf mt s :
  (forall k ls s', (Z.of_nat k < i32 n) -> rd_n (rd mat mf mt) k s = Ok ls s' -> never_other (rd mat mf mt s')) -> never_other (rd_all rd n mat mf mt s).
Proof.
  intros H. unfold rd_all, rd_sequence. cbv zeta. apply never_bind; [apply never_std, only_std_require|]. intros [] s1 E. unfold require in E.
  destruct (Z.ltb_spec (i32 n) 0); [discriminate|]. injection E as <-. apply never_rd_n. intros k ls s' L. apply H. lia.
Qed.
Lemma never_all_after {A} (rd : Z -> Z -> Z -> M A) n mat mf mt s :
  (forall s', after (rd mat mf mt) s s' -> never_other (rd mat mf mt s')) -> never_other (rd_all rd n mat mf mt s).
Proof.
  intros H. unfold rd_all, rd_sequence. cbv zeta. apply never_bind; [apply never_std, only_std_require|]. intros [] s1 E. unfold require in E.
  destruct (Z.ltb_spec (i32 n) 0); [discriminate|]. injection E as <-. now apply never_after.
Qed.
Lemma tame_npl l : tame_cov l -> 0 <= i32 (npl l) < 2 ^ 30.
Proof. intros [H _]. unfold npl. fold (len (lB l)). assert (P := len_nonneg (lB l)). rewrite i32_id by (unfold int32; lia). lia. Qed.
Lemma tame_n2 l : tame_cov l -> Z.abs (i32 (lN2 l)) < 2 ^ 15 /\ (lL2 l = 6 -> i32 (lN2 l) <> 0).
Proof. intros [_ H]. apply H, as_int_i32. Qed.
Lemma never_square ls ne nt s : Z.abs ne < 2 ^ 15 -> 0 <= nt < 2 ^ 30 -> never_other (lift (size_square ls ne nt) s).
Proof.
  intros H1 H2. unfold size_square. apply never_op; [unfold int32; lia|]. apply never_op; [unfold int32; lia|].
  assert (Hq : Z.abs (ne * (ne - 1)) < 2 ^ 31 /\ Z.abs ((ne - 1) * (ne - 1)) < 2 ^ 31) by nia.
  destruct (negb (ls =? 0)); (apply never_op; [unfold int32; lia|apply never_ensure]).
Qed.
Lemma never_lift_bind {A B} (o : out A) (f : A -> out B) s : never_other (lift o s) -> (forall a, never_other (lift (f a) s)) -> never_other (lift (obind o f) s).
Proof. intros H K. destruct o; [apply K|exact H|exact H]. Qed.
Lemma never_mk_explicit l s : tame_cov l -> never_other (lift (mk_explicit l) s).
Proof.
  intros Tm. assert (N := tame_npl l Tm). destruct (tame_n2 l Tm) as [N2 N6]. unfold mk_explicit.
  destruct (is_pairs (lL2 l)); [|destruct (Z.eqb_spec (lL2 l) 5) as [E|_]; [|destruct (Z.eqb_spec (lL2 l) 6) as [E|_]; [|reflexivity]]]; (apply never_lift_bind; [|intros; exact I]).
  - unfold check_pairs. destruct (lb_lt _ _); [|reflexivity]. unfold size_tab. apply never_op; [unfold int32; lia|apply never_ensure].
  - unfold check_square. destruct (_ =? 5); [|reflexivity]. now apply never_square.
  - unfold check_rect. destruct (_ =? 6); [|reflexivity]. apply never_op; [unfold int32; lia|]. destruct (Z.eqb_spec (i32 (lN2 l)) 0) as [Z0|_]; [destruct (N6 E Z0)|].
    replace ((i32 (npl l) - 1 =? -2147483648) && (i32 (lN2 l) =? -1)) with false by lia. apply never_ensure.
Qed.
Lemma rd_n_explicit mat mf mt : forall k s es s', rd_n (rd_explicit mat mf mt) k s = Ok es s' -> rd_n (rd_list mat mf mt) k s = Ok (map list_of es) s'.
Proof.
  induction k as [|k IH]; intros s es s' E; [cbn [rd_n] in E; unfold ret in E; injection E as <- <-; reflexivity|]. cbn [rd_n] in *. unfold bind in *. unfold rd_explicit at 1 in E. unfold bind in E.
  destruct (rd_list mat mf mt s) as [l s1| |]; [|discriminate|discriminate]. unfold lift in E. destruct (mk_explicit l) as [e|e|] eqn:M; [|discriminate|discriminate].
  cbn [ret] in E. cbv beta iota in E. apply mk_explicit_spec in M. destruct M as [M _]. destruct (rd_n (rd_explicit mat mf mt) k s1) as [es' s2| |] eqn:K; [|discriminate|discriminate].
  rewrite (IH _ _ _ K). cbn in E. injection E as <- <-. cbn [ret map]. now rewrite M.
Qed.
Lemma never_explicits n mat mf mt s : tame_lists (i32 n) mat mf mt s -> never_other (rd_all rd_explicit n mat mf mt s).
Proof.
  intros H. apply never_all. intros k es s' L E. apply rd_n_explicit in E. unfold rd_explicit. apply never_bind; [apply never_std, std_list|].
  intros l s2 E2. apply never_mk_explicit. eapply H; eauto.
Qed.
Lemma std_derived : std3 rd_derived.
Proof.
  intros mat mf mt. unfold rd_derived. apply only_std_bind; [apply std_cont|intros c].
  destruct (_ =? 0); [|destruct (_ && _)]; [apply only_std_bind; [apply std_list|intros; apply only_std_ret]..|apply only_std_throw; reflexivity].
Qed.
Lemma never_cast x s : int32 (round_int x) -> never_other (lift (cast_int x) s).
Proof. intros H. assert (E : cast_int x = Val (round_int x)) by (apply cast_int_val; auto). rewrite E. exact Logic.I. Qed.
Lemma never_block mat mf mt s : tame_block mat mf mt s -> never_other (rd_block mat mf mt s).
Proof.
  intros H. unfold rd_block. apply never_bind; [apply never_std, std_cont|]. intros c s1 E1. destruct (H c s1 E1) as (Ka & Kb & K).
  apply never_bind; [apply never_std, only_std_rd_n, std_derived|]. intros ds s2 E2.
  apply never_bind; [apply never_explicits, (K _ _ ds s2 (as_int_i32 _) (as_int_i32 _) E2)|]. intros es s3 _.
  unfold mk_block. apply never_lift_bind; [now apply never_cast|intros a]. apply never_lift_bind; [now apply never_cast|intros; exact I].
Qed.
Ltac start h mat E := apply never_section; [assumption|reflexivity|reflexivity|]; intros E; subst mat.
Lemma safe_31 h mat s : int32 (round_int (c1 (sbase h))) -> tame_cov_section 31 (smat h) (smt h) (buf s) -> never_other (rd_section sec_31 h mat s).
Proof.
  intros Hz Tm. start h mat E. cbn [sec_31 k_read k_mf]. change (k_rmt sec_31 h) with (smt h).
  apply never_all_after. intros s1 F. apply never_block. destruct s as [b ln]. exact (Tm ln s1 F).
Qed.
Lemma safe_33 h mat s : int32 (round_int (c1 (sbase h))) -> tame_cov_section 33 (smat h) (smt h) (buf s) -> never_other (rd_section sec_33 h mat s).
Proof.
  intros Hz Tm. start h mat E. cbn [sec_33 k_read k_mf]. change (k_rmt sec_33 h) with (smt h). apply never_bind; [|intros; exact I].
  apply never_all_after. intros s1 F. apply never_block. destruct s as [b ln]. exact (Tm ln s1 F).
Qed.
Lemma safe_40 h mat s : int32 (round_int (c1 (sbase h))) -> tame40 (smat h) (smt h) (buf s) -> never_other (rd_section sec_40 h mat s).
Proof.
  intros Hz Tm. start h mat E. cbn [sec_40 k_read k_mf]. change (k_rmt sec_40 h) with (smt h). apply never_bind; [|intros; exact I].
  apply never_all_after. intros s1 F. unfold rd_level. apply never_bind; [apply never_std, std_cont|]. intros c s2 E2. apply never_bind; [|intros; exact I].
  apply never_all_after. intros s3 F3. apply never_block. destruct s as [b ln]. exact (Tm ln s1 c s2 s3 F E2 F3).
Qed.
Lemma safe_35 h mat s : int32 (round_int (c1 (sbase h))) -> tame35 (smat h) (smt h) (buf s) -> never_other (rd_section sec_35 h mat s).
Proof.
  intros Hz Tm. start h mat E. cbn [sec_35 k_read k_mf]. change (k_rmt sec_35 h) with (smt h).
  apply never_all. intros k ls s1 L F. apply rd_n_checked in F. apply never_checked. intros l s2 E2. destruct s as [b ln]. assert (Tl := Tm ln k ls s1 l s2 F E2).
  unfold check_square35. destruct (_ =? 7); [|reflexivity]. apply never_square; [apply (tame_n2 l Tl)|apply (tame_npl l Tl)].
Qed.
Lemma never_long z f s : -9223372036854775808 <= z < 9223372036854775808 -> never_other (lift (f z) s) -> never_other (lift (obind (long_op z) f : out Z) s).
Proof. intros I H. rewrite long_op_val by exact I. exact H. Qed.
Lemma i32_close z : Z.abs z < 2 ^ 15 -> i32 z = z.
Proof. intros H. apply i32_id. unfold int32. lia. Qed.
Lemma safe_34 h mat s : int32 (round_int (c1 (sbase h))) -> tame34 (smat h) (smt h) (buf s) -> never_other (rd_section sec_34 h mat s).
Proof.
  intros Hz Tm. start h mat E. cbn [sec_34 k_read k_mf]. change (k_rmt sec_34 h) with (smt h). apply never_bind; [|intros; exact I].
  apply never_all_after. intros s1 F. unfold rd_block34. apply never_bind; [apply never_std, std_cont|]. intros c s2 E2.
  destruct s as [b ln]. destruct (Tm ln s1 c s2 F E2) as (B1 & B2 & K).
  assert (P : Z.abs (n1 c * (n2 c + 1)) < 2 ^ 31 /\ Z.abs (n1 c * n2 c) < 2 ^ 31 /\ Z.abs (n1 c * (n1 c + 1)) < 2 ^ 31) by nia.
  apply never_bind.
  { unfold count34. destruct (_ =? _); [apply never_long; [lia|apply never_long; [lia|exact I]]|]. rewrite long_op_val by lia. exact I. }
  intros n s2' E2'. assert (s2' = s2) by (unfold lift in E2'; destruct (count34 _ _); [injection E2' as _ <-; reflexivity|discriminate..]). subst s2'.
  apply never_bind.
  - apply never_all_after. intros s3 F3. unfold rd_legblock. apply never_bind; [apply never_std, std_cont|]. intros c4 s4 E4.
    apply never_bind; [|intros; exact I]. apply never_explicits. exact (K s3 c4 s4 _ F3 E4 (as_int_i32 _)).
  - intros bs s3 _. unfold make_block34. apply never_lift_bind; [|intros; exact I]. unfold size_block34. rewrite (i32_close (n1 c) B1), (i32_close (n2 c) B2).
    destruct (_ =? i32 (l2 c)).
    + destruct (n1 c =? n2 c); [|reflexivity]. apply never_op; [unfold int32; lia|]. apply never_op; [unfold int32; lia|apply never_ensure].
    + apply never_op; [unfold int32; lia|apply never_ensure].
Qed.
