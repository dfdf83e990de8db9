(** Sec7Proofs.v -- File 7 satisfies [section_rt]; no undefined behaviour on tame texts. *)
From Coq Require Import ZifyBool ZifyNat.
From Verif Require Import Base Disco DiscoProofs Records RecordProofs RecordRT RecordSound Layout
  RealRound RealProofs Spec Normal LineFacts Sections SecSpec Codec SectionProofs SecKit CodecKit
  Sec9 Sec9Spec Sec9Proofs Sec4Spec Sec4Proofs Sec6 Sec6Spec Sec6Proofs Sec6Safe Sec33 Sec33Spec Sec33Proofs Sec33Safe Sec8 Sec8Spec Sec8Proofs Sec7 Sec7Spec.
Open Scope Z_scope.

(** ** series of temperatures *)
Lemma eta_series x : mkseries (se_first x) (se_more x) = x. Proof. now destruct x. Qed.
Lemma cod_series : cod rep_series inv_series rd_series pr_series nc_series.
Proof.
  refine (cod_imp _ _ _ _ _ (cod_dep mkseries se_first se_more rep_tab1 inv_tab1 rd_tab1 pr_tab1 nc_tab1 (fun _ => Forall endf_list) _ _ _ _
    eta_series (fun a b => eq_refl) (fun a b => eq_refl) cod_tab1 (fun t => cod_all _ _ _ _ _ (tL1 (tbase t)) cod_list)) _ _ _ _).
  - intros x R [I1 I2]. split; [exact R|]. apply as_int_get in I2. split; [exact I1|]. split; [apply Forall_forall; exact (fun _ _ => I)|lia].
  - intros x [I1 [_ L]]. split; [exact I1|]. apply as_int_eq. lia.
Qed.
Lemma std_series : std3 rd_series.
Proof. apply (std_dep mkseries); [apply std_tab1|intros t; apply std_all, std_list]. Qed.
Lemma coherent_ok_spec x : coherent_ok x = true <-> Forall (fun l => as_int (len (tx (se_first x))) (len (lB l))) (se_more x).
Proof.
  unfold coherent_ok. rewrite forallb_forall, Forall_forall. split; intros H l Hl; specialize (H l Hl).
  - apply as_int_eq. unfold npl, len in *. lia.
  - apply as_int_get in H. unfold npl, len in *. lia.
Qed.
Lemma cod_coherent : cod rep_series inv_coherent rd_coherent pr_series nc_series.
Proof. exact (cod_require _ _ _ _ _ coherent_ok _ cod_series coherent_ok_spec). Qed.
Lemma std_coherent : std3 rd_coherent.
Proof. apply std_check, std_series. Qed.
Lemma as_int_NT x : inv_series x -> (se_NT x =? 1) = true -> se_more x = [].
Proof.
  intros [_ [B _]] E. unfold se_NT in E. destruct (se_more x) as [|l ls]; [reflexivity|]. exfalso. revert B E. unfold len, int32. cbn [length].
  intros B E. apply Z.eqb_eq, as_int_eq in E. destruct E as [_ E]. apply Z.mod_divide in E; [|lia]. destruct E as [k E]. lia.
Qed.
Lemma cod_function : cod rep_series inv_function rd_function pr_series nc_series.
Proof.
  refine (cod_imp _ _ _ _ _ (cod_check _ _ _ _ _ cod_series betas_ok) _ _ _ _).
  - intros x R [I1 I2]. split; [exact R|]. split; [exact I1|]. unfold betas_ok. destruct (_ =? 1); [reflexivity|]. apply forallb_forall.
    rewrite Forall_forall in I2. intros l Hl. apply req_spec. auto.
  - intros x [I1 E]. split; [exact I1|]. unfold betas_ok in E. destruct (se_NT x =? 1) eqn:K.
    + rewrite (as_int_NT x I1 K). constructor.
    + rewrite forallb_forall in E. apply Forall_forall. intros l Hl. apply req_spec. auto.
Qed.
Lemma std_function : std3 rd_function.
Proof. apply std_check, std_series. Qed.

(** ** elastic scattering *)
Lemma cod_elastic lthr : cod (fun e => rep_elastic e /\ LTHR e = i32 lthr) inv_elastic (rd_elastic lthr) pr_elastic nc_elastic.
Proof.
  unfold rd_elastic. destruct (Z.eqb_spec (i32 lthr) 1) as [E1|E1]; [|destruct (Z.eqb_spec (i32 lthr) 2) as [E2|E2]; [|destruct (Z.eqb_spec (i32 lthr) 3) as [E3|E3]]].
  - eapply (cod_inj Coherent); [apply cod_coherent|reflexivity|reflexivity| |auto].
    intros [x|t|x t] [R L] I; cbn [LTHR] in L; try lia. exists x. auto.
  - eapply (cod_inj Incoherent); [apply cod_tab1|reflexivity|reflexivity| |auto].
    intros [x|t|x t] [R L] I; cbn [LTHR] in L; try lia. exists t. auto.
  - refine (cod_ext _ _ _ _ _ _ (cod_inj (fun p => Mixed (fst p) (snd p)) _ _ pr_elastic nc_elastic _ _ _ _ _ (cod_pair _ _ _ _ _ _ _ _ _ _ cod_coherent cod_tab1) _ _ _ _) _).
    + reflexivity.
    + reflexivity.
    + intros [x|t|x t] [R L] I; cbn [LTHR] in L; try lia. exists (x, t). auto.
    + intros [x t] I. exact I.
    + intros mat mf mt s. rewrite !bind_assoc_st. apply bind_ext. intros x s1. rewrite !bind_assoc_st. apply bind_ext. intros t s2. reflexivity.
  - apply cod_throw. intros [x|t|x t] [R L] _; cbn [LTHR] in L; lia.
Qed.
Lemma std_elastic lthr : std3 (rd_elastic lthr).
Proof.
  unfold rd_elastic. intros mat mf mt. destruct (_ =? 1); [|destruct (_ =? 2); [|destruct (_ =? 3)]].
  - apply only_std_bind; [apply std_coherent|intros; apply only_std_ret].
  - apply only_std_bind; [apply std_tab1|intros; apply only_std_ret].
  - apply only_std_bind; [apply std_coherent|intros]. apply only_std_bind; [apply std_tab1|intros; apply only_std_ret].
  - apply only_std_throw. reflexivity.
Qed.
Lemma body_7_2 : body_cod sec_7_2 rep_elastic inv_elastic.
Proof.
  split; [cbn; lia|cbn; lia| |].
  - intros e R I. destruct e; cbn; ints4.
  - intros h awr _. apply (cod_imp _ _ _ _ _ (cod_elastic (l1 (sbase h)))); [|auto].
    intros e [R E] I. split; [|exact I]. split; [exact R|]. cbn in E. unfold head_ints in E. injection E as E1 E2 E3 E4. rewrite E1. now destruct e.
Qed.
Lemma rt_7_2 : section_codec sec_7_2 rep_elastic inv_elastic.
Proof. apply body_codec; [apply body_7_2|]. intros h. apply std_elastic. Qed.

(** ** inelastic scattering *)
Lemma cod_lift {A B} (o : out A) (R : B -> Prop) (I : A -> B -> Prop) (rd : A -> Z -> Z -> Z -> M B) pr nc : (forall a, o = Val a -> cod R (I a) (rd a) pr nc) ->
  cod R (fun x => exists a, o = Val a /\ I a x) (fun mat mf mt => a <- lift o ;; rd a mat mf mt) pr nc.
Proof.
  intros H. split; intros mat mf mt.
  - intros x G Rx (a & E & Ix). specialize (H a E). rewrite E. intros rest ln. exact (co_reads _ _ _ _ _ H mat mf mt x G Rx Ix rest ln).
  - intros x G Rx (a & E & Ix). specialize (H a E). now apply H.
  - destruct o as [a| |]; [|intros s a s' E; discriminate E..]. intros s x s' E. exact (co_consumes _ _ _ _ _ (H a eq_refl) mat mf mt s x s' E).
  - destruct o as [a| |]; [|intros s a s' E; discriminate E..]. intros s x s' E. exists a. split; [reflexivity|]. exact (co_post _ _ _ _ _ (H a eq_refl) mat mf mt s x s' E).
Qed.
Definition int_constants (l : listr) : Prop :=
  let n := i32 (lN2 l) in n <= 3 /\ int32 (6 * (n + 1)) /\ as_int (len (lB l)) (6 * (n + 1)) /\ (as_int (lL1 l) 0 \/ as_int (lL1 l) 1).
Lemma check_constants_spec l : check_constants l = Val tt <-> int_constants l.
Proof.
  unfold check_constants, int_constants. cbv zeta. destruct (Z.ltb_spec 3 (i32 (lN2 l))); [split; [discriminate|lia]|]. rewrite obind_val. rewrite !as_int_eq. unfold npl. fold (len (lB l)). split.
  - intros (p & E & K). apply int_op_val in E. destruct E as [-> B]. apply obind_val in K. destruct K as ([] & K1 & K2). apply ensure_val in K1, K2. split; [lia|]. split; [exact B|]. lia.
  - intros (A & B & C & D). exists (6 * (i32 (lN2 l) + 1)). split; [apply int_op_val; auto|]. apply obind_val. exists tt. split; apply ensure_val; lia.
Qed.
Lemma element_val l i x : element l i = Val x <-> nth_error l i = Some x.
Proof. unfold element. destruct (nth_error l i); split; congruence. Qed.
Lemma element_nth l i : (i < length l)%nat -> element l i = Val (nth i l rzero).
Proof. intros H. apply element_val. now apply nth_error_nth'. Qed.
Definition first_sigma (l : listr) : out real := let! xs := MSIGMA l in element xs 0.
Lemma first_sigma_val l b : first_sigma l = Val b -> 0 <= lN2 l <= 3 /\ b = nth 0 (lB l) rzero.
Proof.
  unfold first_sigma, MSIGMA, msigma_indices. intros E. apply obind_val in E. destruct E as (xs & E & K). apply obind_val in E. destruct E as (is & E1 & E2).
  assert (G : 0 <= lN2 l <= 3 /\ exists is', is = 0%nat :: is').
  { destruct (Z.eqb_spec (lN2 l) 0); [injection E1 as <-; split; [lia|eauto]|]. destruct (Z.eqb_spec (lN2 l) 1); [injection E1 as <-; split; [lia|eauto]|].
    destruct (Z.eqb_spec (lN2 l) 2); [injection E1 as <-; split; [lia|eauto]|]. destruct (Z.eqb_spec (lN2 l) 3); [injection E1 as <-; split; [lia|eauto]|discriminate]. }
  destruct G as [G (is' & ->)]. split; [exact G|]. cbn [map all_val] in E2. apply obind_val in E2. destruct E2 as (x & E3 & E4). apply obind_val in E4. destruct E4 as (ys & E5 & E6).
  injection E6 as <-. cbn in K. injection K as <-. apply element_val in E3. symmetry. now apply nth_error_nth.
Qed.
Lemma all_val_elements l is : Forall (fun i => (i < length l)%nat) is -> all_val (map (element l) is) = Val (map (fun i => nth i l rzero) is).
Proof. induction 1 as [|i is H _ IH]; [reflexivity|]. cbn [map all_val]. rewrite (element_nth l i H). cbn [obind]. rewrite IH. reflexivity. Qed.
Lemma constants_length l : inv_constants l -> (6 * (Z.to_nat (lN2 l) + 1) <= length (lB l))%nat.
Proof. intros (A & [_ B] & _). apply Z.mod_divide in B; [|lia]. destruct B as [k B]. unfold len in B. lia. Qed.
Lemma msigma_ok l : inv_constants l -> exists is, msigma_indices (lN2 l) = Val (0%nat :: is) /\ MSIGMA l = Val (map (fun i => nth i (lB l) rzero) (0%nat :: is)).
Proof.
  intros In. assert (L := constants_length l In). destruct In as (A & _).
  assert (C : lN2 l = 0 \/ lN2 l = 1 \/ lN2 l = 2 \/ lN2 l = 3) by lia. unfold MSIGMA.
  destruct C as [C|[C|[C|C]]]; rewrite C in L |- *; cbn [msigma_indices obind Z.eqb]; eexists; (split; [reflexivity|]);
    cbn [obind]; apply all_val_elements; repeat (constructor; [lia|]); constructor.
Qed.
Lemma first_sigma_ok l : inv_constants l -> first_sigma l = Val (nth 0 (lB l) rzero).
Proof. intros H. destruct (msigma_ok l H) as (is & _ & E). unfold first_sigma. rewrite E. reflexivity. Qed.
Lemma constants_int l : 0 <= lN2 l <= 3 -> int_constants l <-> inv_constants l.
Proof.
  intros H. unfold int_constants, inv_constants. cbv zeta. rewrite i32_id by (unfold int32; lia). split; [tauto|]. intros (_ & A & B). split; [lia|]. split; [unfold int32; lia|]. auto.
Qed.
Lemma cod_inelastic l : cod rep_inelastic (fun w => exists b, first_sigma l = Val b /\ (req b rzero = true <-> w = Analytical) /\ inv_inelastic w)
  (rd_inelastic l) pr_inelastic nc_inelastic.
Proof.
  refine (cod_ext _ _ _ _ _ _ (cod_lift (first_sigma l) _ _ (fun b mat mf mt => if req b rzero then ret Analytical else q <- rd_iseq no_more rd_function mat mf mt ;; ret (Tabulated q)) _ _ _) _).
  - intros b _. destruct (req b rzero).
    + refine (cod_ret Analytical _ _ _ _ _ _ _ _); [|split; [tauto|exact I]|reflexivity|reflexivity]. intros x _ [[H _] _]. auto.
    + eapply (cod_inj Tabulated); [apply (cod_iseq0 _ _ _ _ _ cod_function)|reflexivity|reflexivity| |].
      * intros [|q] R [H J]; [discriminate (proj2 H eq_refl)|]. exists q. auto.
      * intros q J. split; [split; discriminate|exact J].
  - intros mat mf mt s. unfold rd_inelastic, first_sigma. destruct (MSIGMA l) as [xs| |]; [|reflexivity..]. reflexivity.
Qed.
(** secondary effective temperatures *)
Definition second_of (y : real) (o : option tab1) : Prop := (req y rzero = true <-> o <> None) /\ (forall t, o = Some t -> inv_tab1 t).
Definition rep_opt (o : option tab1) : Prop := forall t, o = Some t -> rep_tab1 t.
Lemma cod_second y : cod rep_opt (second_of y) (fun mat mf mt => if req y rzero then t <- rd_tab1 mat mf mt ;; ret (Some t) else ret None) (pr_opt pr_tab1) (nc_opt nc_tab1).
Proof.
  unfold second_of. destruct (req y rzero).
  - eapply (cod_inj Some); [apply cod_tab1|reflexivity|reflexivity| |].
    + intros [t|] R [H J]; [exists t; auto|]. destruct (proj1 H eq_refl eq_refl).
    + intros t J. split; [split; [discriminate|reflexivity]|]. intros t' E. injection E as <-. exact J.
  - refine (cod_ret None _ _ _ _ _ _ _ _); [|split; [split; [discriminate|congruence]|discriminate]|reflexivity|reflexivity].
    intros [t|] _ [[_ H] _]; [|reflexivity]. discriminate H. discriminate.
Qed.
Lemma cod_secondary : forall types, cod (Forall rep_opt) (Forall2 second_of types) (rd_secondary types) (pr_all (pr_opt pr_tab1)) (nc_all (nc_opt nc_tab1)).
Proof.
  induction types as [|y types IH].
  - refine (cod_ret [] _ _ _ _ _ _ _ _); [|constructor|reflexivity|reflexivity]. intros x _ H. now inversion H.
  - refine (cod_ext _ _ _ _ _ _ (cod_nc _ _ _ _ _ _ (cod_inj (fun p => fst p :: snd p) _ _ (pr_all (pr_opt pr_tab1)) (nc_all (nc_opt nc_tab1)) _ _ _ _ _ (cod_pair _ _ _ _ _ _ _ _ _ _ (cod_second y) IH) _ _ _ _) _) _).
    + reflexivity.
    + reflexivity.
    + intros os R J. inversion J as [|? o ? os' J1 J2]; subst. inversion R; subst. exists (o, os'). auto.
    + intros [o os] [J1 J2]. constructor; assumption.
    + reflexivity.
    + intros mat mf mt s. cbn [rd_secondary]. rewrite !bind_assoc_st. apply bind_ext. intros x s1. rewrite !bind_assoc_st. apply bind_ext. intros t s2. reflexivity.
Qed.
Lemma std_secondary mat mf mt : forall types, only_std (rd_secondary types mat mf mt).
Proof.
  induction types as [|y types IH]; [apply only_std_ret|]. cbn [rd_secondary]. apply only_std_bind.
  - destruct (req y rzero); [apply only_std_bind; [apply std_tab1|intros; apply only_std_ret]|apply only_std_ret].
  - intros o. apply only_std_bind; [exact IH|intros; apply only_std_ret].
Qed.
Lemma types_val l types : sc_types l = Val types -> (6 <= length (lB l))%nat /\ types = stride 6 (skipn 6 (lB l)).
Proof.
  unfold sc_types, column6, drop_exactly. intros E. apply obind_val in E. destruct E as (b & E & K). injection K as <-.
  destruct ((6 <? 0) || (Z.of_nat (length (lB l)) <? 6)) eqn:B; [discriminate|]. injection E as <-. split; [lia|reflexivity].
Qed.
Lemma types_ok l : (6 <= length (lB l))%nat -> sc_types l = Val (stride 6 (skipn 6 (lB l))).
Proof. intros H. unfold sc_types, column6, drop_exactly. replace ((6 <? 0) || (Z.of_nat (length (lB l)) <? 6)) with false by lia. reflexivity. Qed.
Lemma types_count l n : (6 <= length (lB l))%nat -> (n <= length (stride 6 (skipn 6 (lB l))))%nat <-> kinds l n.
Proof. intros H. rewrite stride_length by lia. rewrite skipn_length. unfold kinds. lia. Qed.
Lemma types_nth l i y : nth_error (stride 6 (skipn 6 (lB l))) i = Some y -> y = kind l i.
Proof.
  rewrite stride_nth by lia. destruct (Nat.ltb_spec (i * 6) (length (skipn 6 (lB l)))); [|discriminate]. intros E. injection E as <-. unfold kind.
  rewrite skipn_length in *. rewrite <- (firstn_skipn 6 (lB l)) at 2. rewrite app_nth2 by (rewrite firstn_length; lia). rewrite firstn_length. f_equal. lia.
Qed.
Lemma agree_spec : forall types os, Forall2 (fun y o => req y rzero = true <-> o <> None) types os <-> length types = length os /\ agree types os = true.
Proof.
  induction types as [|y types IH]; intros [|o os]; cbn [length agree].
  - split; [auto|constructor].
  - split; [intros H; inversion H|intros [? _]; lia].
  - split; [intros H; inversion H|intros [? _]; lia].
  - split.
    + intros H. inversion H as [|? ? ? ? H1 H2]; subst. apply IH in H2. destruct H2 as [L A]. split; [lia|]. rewrite A, andb_true_r. apply Bool.eqb_true_iff.
      destruct o; destruct (req y rzero); try reflexivity; [apply H1; discriminate|destruct (proj1 H1 eq_refl eq_refl)].
    + intros [L A]. apply andb_true_iff in A. destruct A as [A1 A2]. apply Bool.eqb_prop in A1. constructor; [|apply IH; split; [lia|exact A2]].
      rewrite A1. destruct o; split; congruence.
Qed.
Lemma Forall2_nth_iff {A B} (P : A -> B -> Prop) : forall l r, Forall2 P l r <-> length l = length r /\ forall i a b, nth_error l i = Some a -> nth_error r i = Some b -> P a b.
Proof.
  induction l as [|x l IH]; intros [|y r]; cbn [length].
  - split; [intros; split; [reflexivity|intros [|] ? ?; discriminate]|constructor].
  - split; [intros H; inversion H|intros [? _]; lia].
  - split; [intros H; inversion H|intros [? _]; lia].
  - split.
    + intros H. inversion H as [|? ? ? ? H1 H2]; subst. apply IH in H2. destruct H2 as [L K]. split; [lia|]. intros [|i] a b E F; [injection E as <-; injection F as <-; exact H1|exact (K i a b E F)].
    + intros [L K]. constructor; [exact (K 0%nat x y eq_refl eq_refl)|]. apply IH. split; [lia|]. intros i. exact (K (Datatypes.S i)).
Qed.
Lemma Forall2_len {A B} (P : A -> B -> Prop) l r : Forall2 P l r -> length l = length r.
Proof. induction 1; cbn; lia. Qed.
Lemma same_count (n m : nat) : (forall k, (k <= n <-> k <= m)%nat) -> n = m.
Proof. intros H. assert (A := H n). assert (B := H m). lia. Qed.
(** the secondary temperatures of the specification *)
Lemma seconds_spec l os : (6 <= length (lB l))%nat ->
  Forall2 second_of (stride 6 (skipn 6 (lB l))) os <->
  Forall (fun o => forall t, o = Some t -> inv_tab1 t) os
  /\ (forall n, (n <= length os)%nat <-> kinds l n)
  /\ (forall i o, nth_error os i = Some o -> (o = None <-> ~ same_real (kind l i) rzero)).
Proof.
  intros H. rewrite Forall2_nth_iff. set (types := stride 6 (skipn 6 (lB l))) in *. split.
  - intros [L K]. split; [|split].
    + apply Forall_forall. intros o Ho. apply In_nth_error in Ho. destruct Ho as [i Ho].
      destruct (nth_error types i) as [y|] eqn:Ey; [|apply nth_error_None in Ey; assert (nth_error os i <> None) by congruence; apply nth_error_Some in H0; lia].
      apply (K i y o Ey Ho).
    + intros n. rewrite <- L. apply types_count, H.
    + intros i o Ho. destruct (nth_error types i) as [y|] eqn:Ey; [|apply nth_error_None in Ey; assert (nth_error os i <> None) by congruence; apply nth_error_Some in H0; lia].
      destruct (K i y o Ey Ho) as [Q _]. rewrite (types_nth l i y Ey) in Q. rewrite <- req_spec. destruct o, (req (kind l i) rzero); split; try congruence; intros; exfalso; [destruct Q as [_ Q]; discriminate Q; discriminate|destruct Q as [Q _]; now apply Q].
  - intros (F & N & K). split; [apply same_count; intros n; rewrite N; apply types_count, H|]. intros i y o Ey Ho. split.
    + rewrite (types_nth l i y Ey). specialize (K i o Ho). rewrite <- req_spec in K. destruct o, (req (kind l i) rzero); split; try congruence; intros; exfalso.
      * destruct K as [_ K]. discriminate K. discriminate.
      * destruct K as [K _]. now apply K.
    + rewrite Forall_forall in F. apply F. apply nth_error_In in Ho. exact Ho.
Qed.
Lemma make_thermal_val lat lasym l w p os x : make_thermal lat lasym l w p os = Val x <->
  x = mkthermal lat lasym l w p os /\ (lat = 0 \/ lat = 1) /\ exists types, sc_types l = Val types /\ length types = length os /\ agree types os = true.
Proof.
  unfold make_thermal, check_secondary. rewrite obind_val. split.
  - intros ([] & E & K). apply obind_val in E. destruct E as (types & E1 & E2). apply ensure_val in E2. apply obind_val in K. destruct K as ([] & K1 & K2). injection K2 as <-.
    apply ensure_val in K1. unfold lat_ok in K1. apply andb_true_iff in E2. destruct E2 as [E2 E3]. apply Nat.eqb_eq in E2. split; [reflexivity|]. split; [lia|eauto].
  - intros (-> & Hl & types & E1 & E2 & E3). exists tt. rewrite E1. cbn [obind]. rewrite E2, Nat.eqb_refl, E3. split; [reflexivity|]. unfold lat_ok. replace (_ || _) with true by lia. reflexivity.
Qed.
Lemma Forall2_impl' {A B} (P Q : A -> B -> Prop) l r : (forall a b, P a b -> Q a b) -> Forall2 P l r -> Forall2 Q l r.
Proof. intros H. induction 1; constructor; auto. Qed.
Lemma cod_thermal lat lasym : cod (fun x => rep_thermal x /\ th_lat x = i32 lat /\ th_lasym x = i32 lasym) inv_thermal (rd_thermal lat lasym) pr_thermal nc_thermal.
Proof.
  assert (D := cod_dep pair fst snd endf_list int_constants _ _ _ _ _ _ _ _
    (fun c => match c return (fst c, snd c) = c with (a, b) => eq_refl end) (fun a b => eq_refl) (fun a b => eq_refl)
    (cod_checked _ _ check_constants_spec)
    (fun l => cod_pair _ _ _ _ _ _ _ _ _ _ (cod_inelastic l)
      (cod_pair _ _ _ _ _ _ _ _ _ _ cod_tab1 (cod_lift (sc_types l) (Forall rep_opt) (fun types os => Forall2 second_of (firstn (Z.to_nat (u32 (Z.of_nat (length types)))) types) os) _ _ _ (fun types _ => cod_secondary _))))).
  cbn [fst snd] in D.
  assert (D2 := cod_map (fun c => make_thermal (i32 lat) (i32 lasym) (fst c) (fst (snd c)) (fst (snd (snd c))) (snd (snd (snd c))))
    (fun x => (th_constants x, (th_law x, (th_principal x, th_secondary x)))) _ _ (fun x => rep_thermal x /\ th_lat x = i32 lat /\ th_lasym x = i32 lasym) inv_thermal _ _ _ D).
  refine (cod_ext _ _ _ _ _ _ (cod_nc _ _ _ _ _ _ (D2 _ _) _) _).
  - intros x [(R1 & R2 & R3 & R4) [El Es]] (I1 & I2 & I3 & I4 & I5 & I6 & I7 & I8 & I9 & I10). cbn [fst snd].
    assert (L := constants_length _ I3). assert (L6 : (6 <= length (lB (th_constants x)))%nat) by lia.
    assert (S2 := proj2 (seconds_spec _ _ L6) (conj I7 (conj I9 I10))).
    assert (Ln : length (stride 6 (skipn 6 (lB (th_constants x)))) = length (th_secondary x)) by apply (Forall2_len _ _ _ S2).
    split; [|split].
    + split; [exact R1|]. split; [exact R2|]. split; [exact R3|exact R4].
    + split; [apply constants_int; [apply I3|exact I3]|]. split; [exists (nth 0 (lB (th_constants x)) rzero); rewrite req_spec; split; [now apply first_sigma_ok|auto]|].
      split; [exact I6|]. eexists. split; [apply types_ok, L6|]. rewrite u32_id by (rewrite Ln; unfold len in I8; lia). rewrite Nat2Z.id, firstn_all. exact S2.
    + apply make_thermal_val. split; [rewrite <- El, <- Es; now destruct x|]. split; [lia|]. eexists. split; [apply types_ok, L6|]. apply agree_spec.
      apply (Forall2_impl' _ _ _ _ (fun a b H => proj1 H) S2).
  - intros [l [w [p os]]] x (C1 & (b & B1 & B2 & B3) & Ip & types & T1 & T2) E. cbn [fst snd] in *. apply make_thermal_val in E. destruct E as (-> & Hl & types' & T3 & T4 & T5).
    rewrite T1 in T3. injection T3 as <-. assert (Lt := Forall2_len _ _ _ T2). rewrite firstn_length in Lt.
    assert (U := u32_range (Z.of_nat (length types))).
    destruct (types_val l types T1) as [L6 Et]. destruct (first_sigma_val l b B1) as [N ->].
    rewrite firstn_all2 in T2 by lia. rewrite Et in T2. apply (seconds_spec l os L6) in T2. destruct T2 as (S1 & S2 & S3).
    unfold inv_thermal. cbn [th_lat th_lasym th_constants th_law th_principal th_secondary]. split; [exact Hl|]. split; [apply i32_range|]. split; [now apply constants_int|].
    rewrite <- req_spec. split; [exact B2|]. split; [exact B3|]. split; [exact Ip|]. split; [exact S1|]. split; [unfold len; lia|]. auto.
  - intros x. unfold nc_thermal. cbn [fst snd]. lia.
  - intros mat mf mt s. unfold rd_thermal. rewrite !bind_assoc_st. apply bind_ext. intros l s1. rewrite !bind_assoc_st. apply bind_ext. intros w s2.
    rewrite !bind_assoc_st. apply bind_ext. intros p s3. rewrite !bind_assoc_st. unfold rd_secondaries. rewrite !bind_assoc_st. apply bind_ext. intros types s4. apply bind_ext. intros os s5. reflexivity.
Qed.
Lemma body_7_4 : body_cod sec_7_4 rep_thermal inv_thermal.
Proof.
  split; [cbn; lia|cbn; lia| |].
  - intros x R (I1 & I2 & _). cbn. ints4. apply cols32, I2.
  - intros h awr _. apply (cod_imp _ _ _ _ _ (cod_thermal (l2 (sbase h)) (n1 (sbase h)))); [|auto].
    intros x [R E] In. split; [|exact In]. destruct In as (I1 & I2 & _). cbn in E. unfold head_ints in E. injection E as E1 E2 E3 E4.
    rewrite E2, E3. split; [exact R|]. rewrite !i32_id; [auto|exact I2|unfold int32; lia].
Qed.
Lemma rt_7_4 : section_rt sec_7_4 rep_thermal inv_thermal.
Proof. apply body_section, body_7_4. Qed.
Lemma never_constants l s : tame_constants l -> never_other (lift (check_constants l) s).
Proof.
  intros H. unfold check_constants. destruct (Z.ltb_spec 3 (i32 (lN2 l))); [reflexivity|].
  assert (B : int32 (6 * (i32 (lN2 l) + 1))).
  { destruct H as [H|H]; [rewrite i32_id by (unfold int32; lia); unfold int32; lia|]. destruct (H _ (as_int_i32 (lN2 l))); [lia|tauto]. }
  apply never_op; [exact B|]. apply never_lift_bind; [apply never_ensure|intros; apply never_ensure].
Qed.
Lemma tame_inv l : tame_constants l -> check_constants l = Val tt -> inv_constants l.
Proof.
  intros H E. apply check_constants_spec in E. destruct H as [H|H]; [now apply constants_int|]. exfalso. destruct E as (A & B & C & _).
  destruct (H _ (as_int_i32 (lN2 l))); [lia|tauto].
Qed.
Lemma safe_7_4 h mat s : int32 (round_int (c1 (sbase h))) -> tame74 (buf s) -> never_other (rd_section sec_7_4 h mat s).
Proof.
  intros Hz Tm. apply never_section_any; [exact Hz|]. cbn [sec_7_4 k_read k_mf]. change (k_rmt sec_7_4 h) with 4. change (k_rmat sec_7_4 h mat) with mat.
  destruct s as [b ln]. unfold rd_thermal. apply never_bind.
  - apply never_checked. intros l s' E. apply never_constants. exact (Tm mat ln l s' E).
  - intros l s1 E. assert (In : inv_constants l).
    { unfold rd_checked in E. apply bind_ok in E. destruct E as (l' & s2 & E1 & E2). apply bind_ok in E2. destruct E2 as ([] & s3 & E2 & E3). injection E3 as -> _.
      apply tame_inv; [exact (Tm mat ln l s2 E1)|]. destruct (check_constants l) as [[]| |]; [reflexivity|discriminate|discriminate]. }
    assert (L := constants_length l In).
    apply never_bind; [|intros w s2 _; apply never_bind; [apply never_std, std_tab1|intros p s3 _; apply never_bind]].
    + unfold rd_inelastic. destruct (msigma_ok l In) as (is & _ & ->). unfold bind at 1. cbn [lift map ret]. unfold bind at 1. cbn [lift element nth_error ret].
      apply never_std. destruct (req _ _); [apply only_std_ret|]. apply only_std_bind; [apply std_iseq0, std_function|intros; apply only_std_ret].
    + unfold rd_secondaries. rewrite types_ok by lia. apply never_bind; [reflexivity|]. intros types s4 _. apply never_std, std_secondary.
    + intros os s4 _. unfold make_thermal, check_secondary. rewrite types_ok by lia. cbn [obind]. apply never_lift_bind; [apply never_ensure|intros].
      apply never_lift_bind; [apply never_ensure|intros; reflexivity].
Qed.

(** ** generalised information *)
Lemma check_element_spec l : check_element l = Val tt <-> inv_element l.
Proof.
  unfold check_element, inv_element, values_are. rewrite obind_val. split.
  - intros (p & E & K). apply int_op_val in E. destruct E as [-> _]. apply ensure_val in K.
    exists (i32 (lN2 l)), (i32 (npl l)). split; [apply as_int_i32|]. split; [apply as_int_i32|lia].
  - intros (nl & nw & A & B & E). assert (In : int32 nw) by apply B. apply as_int_get in A, B. exists nw.
    split; [apply int_op_val; rewrite A; split; [lia|replace (nl * 6) with nw by lia; exact In]|apply ensure_val; unfold npl; fold (len (lB l)); lia].
Qed.
Lemma NA_len l : len l < 2 ^ 31 -> NA l = len l.
Proof. intros H. unfold NA. apply u32_id. assert (K := len_nonneg l). unfold len in *. lia. Qed.
Lemma body_7_451 : body_cod sec_7_451 (Forall endf_list) (some_of inv_element).
Proof.
  split; [cbn; lia|cbn; lia| |].
  - intros l R [I1 I2]. cbn [sec_7_451 k_ints]. rewrite NA_len by lia. ints4.
  - intros h awr _. refine (cod_imp _ _ _ _ _ (cod_check _ _ _ _ _ (cod_all _ _ _ _ _ (l1 (sbase h)) (cod_checked _ _ check_element_spec)) elements_ok) _ _ _ _).
    + intros l [R E] [I1 I2]. cbn in E. unfold head_ints in E. injection E as E1 E2 E3 E4. rewrite NA_len in E1 by lia. rewrite E1, i32_id by (apply int32_len; lia).
      split; [exact R|]. split; [auto|]. unfold elements_ok. rewrite NA_len by lia. lia.
    + intros l [[F L] E]. split; [exact F|]. assert (B := i32_pos_bound (l1 (sbase h))). assert (P := len_nonneg l). unfold elements_ok in E. rewrite NA_len in E by lia. lia.
Qed.
Lemma rt_7_451 : section_rt sec_7_451 (Forall endf_list) (some_of inv_element).
Proof. apply body_section, body_7_451. Qed.
Lemma safe_7_451 h mat s : int32 (round_int (c1 (sbase h))) -> tame7451 (smt h) (buf s) -> never_other (rd_section sec_7_451 h mat s).
Proof.
  intros Hz Tm. apply never_section_any; [exact Hz|]. cbn [sec_7_451 k_read k_mf]. change (k_rmt sec_7_451 h) with (smt h). change (k_rmat sec_7_451 h mat) with mat.
  unfold rd_elements. apply never_bind.
  - apply never_all. intros k ls s1 L F. apply rd_n_checked in F. apply never_checked. intros l s2 E2. destruct s as [b ln].
    assert (H := small_i32 l (Tm mat ln k ls s1 l s2 F E2)). unfold check_element. apply never_op; [unfold int32; lia|apply never_ensure].
  - intros l s1 _. apply never_std. apply only_std_bind; [apply only_std_require|intros; apply only_std_ret].
Qed.
