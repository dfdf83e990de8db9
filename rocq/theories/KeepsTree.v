(** KeepsTree.v -- the readers of files, materials and tapes do not tell two related texts
    apart if those of the records and of the sections do not. *)
From Coq Require Import ZifyBool ZifyNat.
From Verif Require Import Base Disco Records SecKit Sections Tree Typed Classes PropClasses Keeps.
From Verif Require TreeProofs PropTrunc.
Open Scope Z_scope.

Section KeepsTree.
Variable Rl : st -> st -> Prop.
Notation rl m := (keeps Rl m).
Hypothesis Rl_line : forall s s', Rl s s' -> line s = line s'.
Hypothesis Rl_sym : forall s s', Rl s s' -> Rl s' s.
Hypothesis empty_rel : forall s s', Rl s s' -> buf s = [] -> s' = s.
Hypothesis rl_sdiv : rl rd_sdiv.
Hypothesis rl_skip : rl rd_skip.
Hypothesis rl_tpid : rl rd_tpid.
Hypothesis rl_any : forall mf d, rl (rd_any skind_of lib_class mf d).

Lemma k_ret {A} (a : A) : rl (ret a).
Proof. intros s s' H. cbn. auto. Qed.
Lemma k_throw {A} e : rl (@throw A e).
Proof. intros s s' H. cbn. split; [reflexivity|exact (Rl_line _ _ H)]. Qed.
Lemma k_undef {A} : rl (@undef A).
Proof. intros s s' H. exact Logic.I. Qed.
Lemma k_lift {A} (o : out A) : rl (lift o).
Proof. destruct o; [apply k_ret|apply k_throw|apply k_undef]. Qed.
Lemma k_require b : rl (require b).
Proof. destruct b; [apply k_ret|apply k_throw]. Qed.
Lemma rl_bind {A B} (m : M A) (f : A -> M B) : rl m -> (forall x, rl (f x)) -> rl (bind m f).
Proof.
  intros H K s s' E. unfold bind. specialize (H s s' E). destruct (m s) as [x t|e t|], (m s') as [x' t'|e' t'|]; try contradiction.
  - destruct H as (<- & E' & L). specialize (K x t t' E'). destruct (f x t), (f x t'); try contradiction; intuition lia.
  - exact H.
  - exact Logic.I.
Qed.
Lemma k_std {A} (m : M A) : rl m -> rl (on_err m h_std).
Proof.
  intros H s s' R. unfold on_err. specialize (H s s' R). destruct (m s) as [x t|e t|], (m s') as [x' t'|e' t'|]; try contradiction; try exact H.
  destruct H as (<- & L). destruct e; cbn; split; congruence.
Qed.
(** the loops: the fuel only has to be enough *)
Definition pair_like {A} (m m' : M A) (s s' : st) : Prop :=
  match m s, m' s' with
  | Ok a t, Ok a' t' => a = a' /\ Rl t t' /\ (mu (buf t) <= mu (buf s))%nat /\ (mu (buf t') <= mu (buf s'))%nat
  | Err e t, Err e' t' => e = e' /\ line t = line t'
  | UB, UB => True
  | _, _ => False
  end.
Lemma pl_rl {A} (m : M A) s s' : rl m -> Rl s s' -> pair_like m m s s'.
Proof.
  intros H R. assert (K := H s s' R). assert (K' := H s' s (Rl_sym _ _ R)). unfold pair_like.
  destruct (m s), (m s'); try contradiction; try exact K. destruct K as (E & R' & L), K' as (_ & _ & L'). auto.
Qed.
Lemma rl_pl {A} (m : M A) : (forall s s', Rl s s' -> pair_like m m s s') -> rl m.
Proof. intros H s s' R. specialize (H s s' R). unfold pair_like in H. destruct (m s), (m s'); try contradiction; try exact H. tauto. Qed.
Lemma pl_bind {A B} (m m' : M A) (f f' : A -> M B) s s' : pair_like m m' s s' ->
  (forall a t t', m s = Ok a t -> m' s' = Ok a t' -> Rl t t' -> pair_like (f a) (f' a) t t') -> pair_like (bind m f) (bind m' f') s s'.
Proof.
  intros H K. unfold pair_like, bind in *. destruct (m s) as [x t|e t|], (m' s') as [x' t'|e' t'|]; try contradiction; try exact H.
  destruct H as (<- & R & L & L'). specialize (K x t t' eq_refl eq_refl R). destruct (f x t), (f' x t'); try contradiction; try exact K. intuition lia.
Qed.
Lemma mu_next t : (mu (snd (next_line t)) <= pred (mu t))%nat.
Proof.
  induction t as [|a t IH]; [apply le_n|]. cbn [next_line mu]. destruct (Ascii.eqb a LF); [cbn [snd]; lia|]. destruct (next_line t). cbn [snd] in *. lia.
Qed.
Lemma mu_len t : (mu t <= length t)%nat.
Proof. induction t as [|a t IH]; [apply le_n|]. cbn [mu length]. destruct (Ascii.eqb a LF); lia. Qed.
Lemma mu_0 t : mu t = O -> t = [].
Proof. destruct t as [|a t]; [reflexivity|]. cbn [mu]. destruct (Ascii.eqb a LF); lia. Qed.
Definition blank : sdiv := mksdiv zero_cont 0 0 0.
Lemma sdiv_nil ln : rd_sdiv (mkst [] ln) = Ok blank (mkst [] (ln + 1)).
Proof. reflexivity. Qed.
Lemma skip_line s x s' : rd_skip s = Ok x s' -> (mu (buf s') <= pred (mu (buf s)))%nat.
Proof.
  destruct s as [t ln], x as [[m f] y]. intros E. destruct (TreeProofs.skip_inv _ _ _ _ _ _ E) as (l & b & N & _ & ->).
  cbn [buf]. assert (Q := mu_next t). rewrite N in Q. exact Q.
Qed.
Lemma skip_nil ln : rd_skip (mkst [] ln) = Ok (0, 0, 0) (mkst [] (ln + 1)).
Proof. reflexivity. Qed.

Section Loop.
  Context {A : Type} (stop : sdiv -> bool) (body : sdiv -> M A).
  Hypothesis Hb : forall d, rl (body d).
  Hypothesis Hend : stop blank = true \/ (forall ln a s, body blank (mkst [] ln) <> Ok a s)
    \/ (forall ln, exists a ln', body blank (mkst [] ln) = Ok a (mkst [] ln')).
  Lemma loop_for_ever : stop blank = false -> (forall ln, exists a ln', body blank (mkst [] ln) = Ok a (mkst [] ln')) ->
    forall f ln, div_loop stop body f blank (mkst [] ln) = UB.
  Proof.
    intros S0 K f. induction f as [|f IH]; intros ln; [reflexivity|]. cbn [div_loop]. rewrite S0. unfold bind at 1. destruct (K ln) as (a & ln' & ->).
    unfold bind at 1. rewrite sdiv_nil. unfold bind at 1. now rewrite IH.
  Qed.
  Lemma loop_end f f' s s' : (1 <= f)%nat -> (1 <= f')%nat -> buf s = [] -> Rl s s' -> pair_like (div_loop stop body f blank) (div_loop stop body f' blank) s s'.
  Proof.
    intros Hf Hf' E R. assert (Q := empty_rel _ _ R E). subst s'. destruct s as [b ln]. cbn [buf] in E. subst b.
    destruct (stop blank) eqn:S0.
    - destruct f as [|f]; [lia|]. destruct f' as [|f']; [lia|]. cbn [div_loop]. rewrite S0. apply pl_rl; [apply k_ret|exact R].
    - destruct Hend as [K|[K|K]]; [congruence| |].
      + destruct f as [|f]; [lia|]. destruct f' as [|f']; [lia|]. cbn [div_loop]. rewrite S0. unfold pair_like, bind.
        specialize (K ln). destruct (body blank (mkst [] ln)) as [a s|e s|]; [destruct (K a s eq_refl)|auto|exact Logic.I].
      + unfold pair_like. rewrite !loop_for_ever by assumption. exact Logic.I.
  Qed.
  Lemma loop_alike : forall f f' d s s', Rl s s' -> (mu (buf s) + 2 <= f)%nat -> (mu (buf s') + 2 <= f')%nat ->
    pair_like (div_loop stop body f d) (div_loop stop body f' d) s s'.
  Proof.
    induction f as [|f IH]; intros f' d s s' R Hf Hf'; [lia|]. destruct f' as [|f']; [lia|]. cbn [div_loop].
    destruct (stop d); [apply pl_rl; [apply k_ret|exact R]|].
    assert (Bs := Hb d s s' R). assert (Bs' := Hb d s' s (Rl_sym _ _ R)).
    apply pl_bind; [apply pl_rl; [apply Hb|exact R]|intros a t t' E1 E1' R1]. rewrite E1, E1' in Bs, Bs'. destruct Bs as (_ & _ & B1), Bs' as (_ & _ & B1').
    apply pl_bind; [apply pl_rl; [apply rl_sdiv|exact R1]|intros d' u u' E2 E2' R2].
    apply pl_bind; [|intros l v v' _ _ R3; apply pl_rl; [apply k_ret|exact R3]].
    destruct (PropTrunc.sdiv_line _ _ _ E2) as [N _]. destruct (PropTrunc.sdiv_line _ _ _ E2') as [N' _].
    assert (M1 := mu_next (buf t)). assert (M1' := mu_next (buf t')). rewrite <- N in M1. rewrite <- N' in M1'.
    destruct (Nat.eq_dec (mu (buf t)) 0) as [Z0|Z0].
    - assert (Et : buf t = []) by now apply mu_0. assert (Q := empty_rel _ _ R1 Et). subst t'. destruct t as [b ln]. cbn [buf] in Et. subst b.
      rewrite sdiv_nil in E2. injection E2 as <- <-. apply loop_end; [lia|lia|reflexivity|exact R2].
    - destruct (Nat.eq_dec (mu (buf t')) 0) as [Z1|Z1].
      + exfalso. apply Z0. assert (Et : buf t' = []) by now apply mu_0. assert (Q := empty_rel _ _ (Rl_sym _ _ R1) Et). subst t. exact Z1.
      + apply IH; [exact R2|lia|lia].
  Qed.
End Loop.

(** [b <- get_pos ;; m (S (S (length b)))] *)
Lemma pl_pos {A} (m : nat -> M A) s s' :
  (forall f f', (mu (buf s) + 2 <= f)%nat -> (mu (buf s') + 2 <= f')%nat -> pair_like (m f) (m f') s s') ->
  pair_like (b <- get_pos ;; m (S (S (length b)))) (b <- get_pos ;; m (S (S (length b)))) s s'.
Proof.
  intros H. assert (L := mu_len (buf s)). assert (L' := mu_len (buf s')). apply (H (S (S (length (buf s)))) (S (S (length (buf s'))))); lia.
Qed.
Lemma skip_mf_alike mf : mf <> 0 -> forall f f' x s s', Rl s s' -> (mu (buf s) + 2 <= f)%nat -> (mu (buf s') + 2 <= f')%nat ->
  pair_like (skip_mf mf f x) (skip_mf mf f' x) s s'.
Proof.
  intros Hmf. induction f as [|f IH]; intros f' x s s' R Hf Hf'; [lia|]. destruct f' as [|f']; [lia|]. cbn [skip_mf].
  destruct (x =? mf); [|apply pl_rl; [apply k_ret|exact R]].
  apply pl_bind; [apply pl_rl; [apply rl_skip|exact R]|intros [[a y] b] u u' E2 E2' R2].
  assert (M1 := skip_line _ _ _ E2). assert (M1' := skip_line _ _ _ E2').
  destruct (Nat.eq_dec (mu (buf s)) 0) as [Z0|Z0].
  - assert (Et : buf s = []) by now apply mu_0. assert (Q := empty_rel _ _ R Et). subst s'. destruct s as [t ln]. cbn [buf] in Et. subst t.
    rewrite skip_nil in E2. injection E2 as <- <- <- <-. destruct f as [|f]; [cbn in Hf; lia|]. destruct f' as [|f']; [cbn in Hf'; lia|].
    cbn [skip_mf]. destruct (Z.eqb_spec 0 mf); [congruence|]. apply pl_rl; [apply k_ret|exact R2].
  - destruct (Nat.eq_dec (mu (buf s')) 0) as [Z1|Z1].
    + exfalso. apply Z0. assert (Et : buf s' = []) by now apply mu_0. assert (Q := empty_rel _ _ (Rl_sym _ _ R) Et). subst s. exact Z1.
    + apply IH; [exact R2|lia|lia].
Qed.
Lemma skip_mt_ever : forall f ln, skip_mt 0 f 0 (mkst [] ln) = UB.
Proof. induction f as [|f IH]; intros ln; [reflexivity|]. cbn [skip_mt]. rewrite Z.eqb_refl. unfold bind. rewrite skip_nil. apply IH. Qed.
Lemma skip_mt_alike mt : forall f f' x s s', Rl s s' -> (mu (buf s) + 2 <= f)%nat -> (mu (buf s') + 2 <= f')%nat ->
  pair_like (skip_mt mt f x) (skip_mt mt f' x) s s'.
Proof.
  induction f as [|f IH]; intros f' x s s' R Hf Hf'; [lia|]. destruct f' as [|f']; [lia|]. cbn [skip_mt].
  destruct (x =? mt); [|apply pl_rl; [apply k_ret|exact R]].
  apply pl_bind; [apply pl_rl; [apply rl_skip|exact R]|intros [[a y] b] u u' E2 E2' R2].
  assert (M1 := skip_line _ _ _ E2). assert (M1' := skip_line _ _ _ E2').
  destruct (Nat.eq_dec (mu (buf s)) 0) as [Z0|Z0].
  - assert (Et : buf s = []) by now apply mu_0. assert (Q := empty_rel _ _ R Et). subst s'. destruct s as [t ln]. cbn [buf] in Et. subst t.
    rewrite skip_nil in E2. injection E2 as <- <- <- <-. assert (Q := empty_rel _ _ R2 eq_refl). subst u'.
    destruct (Z.eqb_spec 0 mt) as [<-|Hm].
    + unfold pair_like. rewrite !skip_mt_ever. exact Logic.I.
    + destruct f as [|f]; [cbn in Hf; lia|]. destruct f' as [|f']; [cbn in Hf'; lia|].
      cbn [skip_mt]. destruct (Z.eqb_spec 0 mt); [congruence|]. apply pl_rl; [apply k_ret|exact R2].
  - destruct (Nat.eq_dec (mu (buf s')) 0) as [Z1|Z1].
    + exfalso. apply Z0. assert (Et : buf s' = []) by now apply mu_0. assert (Q := empty_rel _ _ (Rl_sym _ _ R) Et). subst s. exact Z1.
    + apply IH; [exact R2|lia|lia].
Qed.
Lemma pl_mono {A} (m m' : M A) s s' : pair_like m m' s s' -> (forall a t t', m s = Ok a t -> m' s' = Ok a t' -> Rl t t' /\ (mu (buf t) <= mu (buf s))%nat /\ (mu (buf t') <= mu (buf s'))%nat).
Proof. intros H a t t' E E'. unfold pair_like in H. rewrite E, E' in H. tauto. Qed.
Lemma skip_8_alike : forall f f' d s s', Rl s s' -> (mu (buf s) + 2 <= f)%nat -> (mu (buf s') + 2 <= f')%nat ->
  pair_like (skip_8 f d) (skip_8 f' d) s s'.
Proof.
  induction f as [|f IH]; intros f' d s s' R Hf Hf'; [lia|]. destruct f' as [|f']; [lia|]. cbn [skip_8].
  destruct (smf d =? 8); [|apply pl_rl; [apply k_ret|exact R]].
  set (K := fun (n : nat) (u : unit) => d' <- rd_sdiv ;; skip_8 n d').
  assert (P : forall g g', (mu (buf s) + 2 <= g)%nat -> (mu (buf s') + 2 <= g')%nat ->
    pair_like (skip_mt (smt d) g (smt d) ;;; d' <- rd_sdiv ;; skip_8 f d') (skip_mt (smt d) g' (smt d) ;;; d' <- rd_sdiv ;; skip_8 f' d') s s').
  { intros g g' Hg Hg'. assert (X := skip_mt_alike (smt d) g g' (smt d) s s' R Hg Hg').
    apply pl_bind; [exact X|intros [] t t' E1 E1' R1]. destruct (pl_mono _ _ _ _ X _ _ _ E1 E1') as (_ & B1 & B1').
    apply pl_bind; [apply pl_rl; [apply rl_sdiv|exact R1]|intros d' u u' E2 E2' R2].
    destruct (PropTrunc.sdiv_line _ _ _ E2) as [N _]. destruct (PropTrunc.sdiv_line _ _ _ E2') as [N' _].
    assert (M1 := mu_next (buf t)). assert (M1' := mu_next (buf t')). rewrite <- N in M1. rewrite <- N' in M1'.
    destruct (Nat.eq_dec (mu (buf t)) 0) as [Z0|Z0].
    - assert (Et : buf t = []) by now apply mu_0. assert (Q := empty_rel _ _ R1 Et). subst t'. destruct t as [b ln]. cbn [buf] in Et. subst b.
      rewrite sdiv_nil in E2. injection E2 as <- <-. destruct f as [|f]; [lia|]. destruct f' as [|f']; [lia|]. cbn [skip_8]. apply pl_rl; [apply k_ret|exact R2].
    - destruct (Nat.eq_dec (mu (buf t')) 0) as [Z1|Z1].
      + exfalso. apply Z0. assert (Et : buf t' = []) by now apply mu_0. assert (Q := empty_rel _ _ (Rl_sym _ _ R1) Et). subst t. exact Z1.
      + apply IH; [exact R2|lia|lia]. }
  assert (L := mu_len (buf s)). assert (L' := mu_len (buf s')). apply (P (S (S (length (buf s)))) (S (S (length (buf s'))))); lia.
Qed.
Lemma any_end mf ln a s : rd_any skind_of lib_class mf blank (mkst [] ln) <> Ok a s.
Proof.
  unfold rd_any. destruct (lib_class mf (smt blank)) as [c|]; [|discriminate]. unfold bind at 1, Sections.rd_section. unfold bind at 1, sec_head. unfold bind at 1.
  change (lift (head_za32 blank) (mkst [] ln)) with (Ok 0 (mkst [] ln)). cbv iota. unfold bind at 1. discriminate.
Qed.
Lemma rl_yfile mf d : rl (rd_yfile skind_of lib_class mf d).
Proof.
  unfold rd_yfile. destruct (mf =? 30); [|destruct ((mf =? 8) && negb ((smt d =? 454) || (smt d =? 457) || (smt d =? 459)))].
  - apply rl_bind; [|intros _; apply k_ret]. destruct (smf d =? 30); [|apply k_ret]. apply rl_pl. intros s s' R.
    apply (pl_pos (fun n => skip_mf 30 n (smf d))). intros f f' Hf Hf'. apply skip_mf_alike; [discriminate|exact R|exact Hf|exact Hf'].
  - apply k_std. apply rl_pl. intros s s' R.
    apply (pl_pos (fun n => d' <- skip_8 n d ;; require (verify_fend d') ;;; ret (mkyfile 8 []))). intros f f' Hf Hf'.
    apply pl_bind; [apply skip_8_alike; assumption|intros d' t t' _ _ R1]. apply pl_rl; [|exact R1]. apply rl_bind; [apply k_require|intros _; apply k_ret].
  - unfold rd_yfile_base. apply k_std. apply rl_pl. intros s s' R.
    apply (pl_pos (fun n => l <- div_loop is_fend (rd_any skind_of lib_class mf) n d ;; m <- lift (Typed.fill y_mt l) ;; ret (mkyfile mf m))). intros f f' Hf Hf'.
    apply pl_bind; [apply loop_alike; [apply rl_any|right; left; apply any_end|exact R|exact Hf|exact Hf']|intros l t t' _ _ R1].
    apply pl_rl; [|exact R1]. apply rl_bind; [apply k_lift|intros m; apply k_ret].
Qed.
Lemma rl_any_file d : rl (rd_any_file skind_of lib_class d).
Proof. unfold rd_any_file. destruct (known_mf (smf d)); [apply rl_yfile|apply k_throw]. Qed.
Lemma rl_ymat d : rl (rd_ymat skind_of lib_class d).
Proof.
  unfold rd_ymat. apply k_std. apply rl_pl. intros s s' R.
  apply (pl_pos (fun n => l <- div_loop is_mend (rd_any_file skind_of lib_class) n d ;; m <- lift (Typed.fill yf_mf l) ;; ret (mkymat (smat d) m))). intros f f' Hf Hf'.
  apply pl_bind; [apply loop_alike; [apply rl_any_file|left; reflexivity|exact R|exact Hf|exact Hf']|intros l t t' _ _ R1].
  apply pl_rl; [|exact R1]. apply rl_bind; [apply k_lift|intros m; apply k_ret].
Qed.
Lemma rl_ytape : rl (rd_ytape skind_of lib_class).
Proof.
  unfold rd_ytape. apply k_std. apply rl_bind; [apply rl_tpid|intros i]. apply rl_pl. intros s s' R.
  apply (pl_pos (fun n => l <- rd_ymats skind_of lib_class n ;; lift (make_ytape i l))). intros f f' Hf Hf'.
  apply pl_bind; [|intros l t t' _ _ R1; apply pl_rl; [apply k_lift|exact R1]].
  unfold rd_ymats. apply pl_bind; [apply pl_rl; [apply rl_sdiv|exact R]|intros d t t' E E' R1].
  destruct (PropTrunc.sdiv_line _ _ _ E) as [N _]. destruct (PropTrunc.sdiv_line _ _ _ E') as [N' _].
  assert (M1 := mu_next (buf s)). assert (M1' := mu_next (buf s')). rewrite <- N in M1. rewrite <- N' in M1'.
  apply loop_alike; [apply rl_ymat| |exact R1|lia|lia]. right; right. intros ln. exists (mkymat 0 []), ln. reflexivity.
Qed.
End KeepsTree.
