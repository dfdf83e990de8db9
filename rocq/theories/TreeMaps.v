(** TreeMaps.v -- facts about the ordered maps of Tree.v. *)
From Coq Require Import ZifyBool Permutation.
From Verif Require Import Base Records Spec Tree TreeProofs TreeGrammar.
Open Scope Z_scope.

Section Facts.
  Context {A : Type}.
  Implicit Types l : list (Z * A).

  Lemma mfind_place k v l : mhas k l = false -> mfind k (memplace k v l) = Some v.
  Proof.
    unfold mhas. induction l as [|[a w] l IH]; cbn; intros H.
    - now rewrite Z.eqb_refl.
    - destruct (Z.eqb_spec k a); [discriminate|]. destruct (k <? a); cbn.
      + now rewrite Z.eqb_refl.
      + replace (k =? a) with false by lia. auto.
  Qed.
  Lemma mfind_place_other k k' v l : k <> k' -> mfind k (memplace k' v l) = mfind k l.
  Proof.
    intros H. induction l as [|[a w] l IH]; cbn.
    - now replace (k =? k') with false by lia.
    - destruct (k' <? a); cbn.
      + now replace (k =? k') with false by lia.
      + destruct (k' =? a); cbn; [reflexivity|]. now rewrite IH.
  Qed.
  Lemma mfind_rem k k' l : mfind k (mrem k' l) = if k =? k' then None else mfind k l.
  Proof.
    unfold mrem. induction l as [|[a w] l IH]; cbn.
    - now destruct (k =? k').
    - destruct (Z.eqb_spec a k'); cbn.
      + rewrite IH. subst a. destruct (Z.eqb_spec k k'); [reflexivity|]. reflexivity.
      + rewrite IH. destruct (Z.eqb_spec k a); [|reflexivity]. now replace (k =? k') with false by lia.
  Qed.
  Lemma mfind_upd k k' f l : mfind k (mupd k' f l) = if k =? k' then option_map f (mfind k l) else mfind k l.
  Proof.
    induction l as [|[a w] l IH]; cbn.
    - now destruct (k =? k').
    - destruct (Z.eqb_spec k' a); cbn.
      + subst a. destruct (k =? k'); reflexivity.
      + rewrite IH. destruct (Z.eqb_spec k a); [|reflexivity]. now replace (k =? k') with false by lia.
  Qed.
  Lemma mfind_In k v l : mfind k l = Some v -> In (k, v) l.
  Proof.
    induction l as [|[a w] l IH]; cbn; [discriminate|]. destruct (Z.eqb_spec k a).
    - intros E. injection E as <-. subst. now left.
    - auto.
  Qed.
  Lemma mfind_None k l : mfind k l = None <-> ~ In k (map fst l).
  Proof.
    induction l as [|[a w] l IH]; cbn; [tauto|]. destruct (Z.eqb_spec k a).
    - subst. split; [discriminate|]. intros H. elim H. now left.
    - rewrite IH. intuition congruence.
  Qed.
  Lemma mhas_In k l : mhas k l = true <-> In k (map fst l).
  Proof.
    unfold mhas. destruct (mfind k l) eqn:E.
    - split; [intros _|reflexivity]. apply mfind_In in E. apply (in_map fst) in E. exact E.
    - apply mfind_None in E. split; [discriminate|]. tauto.
  Qed.

  Lemma asc_cons (le : Z -> Z -> Prop) a (l : list Z) : (forall x y z, le x y -> le y z -> le x z) ->
    ascending le (a :: l) <-> Forall (le a) l /\ ascending le l.
  Proof.
    intros T. revert a. induction l as [|b l IH]; intros a; cbn.
    - split; auto.
    - change (match l with [] => True | b0 :: _ => le b b0 /\ ascending le l end) with (ascending le (b :: l)).
      rewrite IH. split.
      + intros (H1 & H2 & H3). split; [constructor; [exact H1|]|auto]. eapply Forall_impl; [|exact H2]. eauto.
      + intros (H1 & H2 & H3). inversion H1; auto.
  Qed.
  Definition strict (l : list Z) := ascending Z.lt l.
  Lemma strict_cons a (l : list Z) : strict (a :: l) <-> Forall (Z.lt a) l /\ strict l.
  Proof. apply asc_cons. lia. Qed.
  Lemma strict_NoDup (l : list Z) : strict l -> NoDup l.
  Proof.
    induction l as [|a l IH]; intros H; [constructor|]. apply strict_cons in H. destruct H as [F H].
    constructor; [|auto]. intros K. rewrite Forall_forall in F. specialize (F _ K). lia.
  Qed.

  Lemma memplace_keys k v l x : In x (map fst (memplace k v l)) <-> x = k \/ In x (map fst l).
  Proof.
    induction l as [|[a w] l IH]; cbn.
    - intuition.
    - destruct (k <? a); cbn; [intuition|]. destruct (Z.eqb_spec k a); cbn; [subst; intuition|]. rewrite IH. intuition.
  Qed.
  Lemma strict_place k v l : strict (map fst l) -> strict (map fst (memplace k v l)).
  Proof.
    induction l as [|[a w] l IH]; intros H; [exact I|]. cbn [memplace].
    destruct (Z.ltb_spec k a).
    - cbn [map fst]. apply strict_cons. split; [|exact H]. cbn [map fst] in H. constructor; [exact H0|].
      apply strict_cons in H. eapply Forall_impl; [|exact (proj1 H)]. cbn. lia.
    - destruct (Z.eqb_spec k a); [exact H|]. cbn [map fst] in *. apply strict_cons in H. apply strict_cons.
      split; [|now apply IH]. apply Forall_forall. intros x Hx. apply memplace_keys in Hx.
      destruct Hx as [->|Hx]; [lia|]. destruct H as [F _]. rewrite Forall_forall in F. auto.
  Qed.
  Lemma strict_filter (p : Z -> bool) (l : list Z) : strict l -> strict (filter p l).
  Proof.
    induction l as [|a l IH]; intros H; [exact I|]. apply strict_cons in H. destruct H as [F H]. cbn [filter].
    destruct (p a); [|apply IH, H]. apply strict_cons. split; [|apply IH, H]. apply Forall_forall. intros x Hx.
    apply filter_In in Hx. rewrite Forall_forall in F. apply F. tauto.
  Qed.
  Lemma mrem_keys k l : map fst (mrem k l) = filter (fun x => negb (x =? k)) (map fst l).
  Proof.
    unfold mrem. induction l as [|[a w] l IH]; [reflexivity|]. cbn. destruct (a =? k); cbn; now rewrite IH.
  Qed.
  Lemma strict_rem k l : strict (map fst l) -> strict (map fst (mrem k l)).
  Proof. intros H. rewrite mrem_keys. now apply strict_filter. Qed.
  Lemma mupd_keys k f l : map fst (mupd k f l) = map fst l.
  Proof. induction l as [|[a w] l IH]; [reflexivity|]. cbn. destruct (k =? a); cbn; [reflexivity|]. now rewrite IH. Qed.

  (** sequence of insertions *)
  Lemma fold_place_strict l : forall acc, strict (map fst acc) -> strict (map fst (fold_place l acc)).
  Proof.
    induction l as [|[k v] l IH]; intros acc H; [exact H|]. cbn. apply IH, strict_place, H.
  Qed.
  Lemma fold_place_find l : forall acc k, fresh l acc ->
    mfind k (fold_place l acc) = match mfind k acc with Some v => Some v | None => mfind k l end.
  Proof.
    induction l as [|[a v] l IH]; intros acc k F.
    - cbn. now destruct (mfind k acc).
    - destruct F as [F1 F2]. cbn [fold_place]. rewrite IH by exact F2. cbn [mfind].
      destruct (Z.eqb_spec k a).
      + subst. rewrite mfind_place by exact F1. unfold mhas in F1. now destruct (mfind a acc).
      + now rewrite mfind_place_other by auto.
  Qed.
  Lemma memplace_last k v l : Forall (fun x => x < k) (map fst l) -> memplace k v l = l ++ [(k, v)].
  Proof.
    induction l as [|[a w] l IH]; intros F; [reflexivity|]. inversion F; subst. cbn.
    replace (k <? a) with false by lia. replace (k =? a) with false by lia. now rewrite IH.
  Qed.
  (** keys in ascending order: nothing is moved *)
  Lemma fold_place_asc l : forall acc, strict (map fst (acc ++ l)) -> fold_place l acc = acc ++ l.
  Proof.
    induction l as [|[k v] l IH]; intros acc H; [now rewrite app_nil_r|]. cbn.
    rewrite memplace_last.
    - rewrite IH; rewrite <- app_assoc; [reflexivity|exact H].
    - clear IH. induction acc as [|[a w] acc IH]; [constructor|]. cbn in H. apply strict_cons in H. destruct H as [F H].
      cbn. constructor; [|auto]. rewrite Forall_forall in F. apply F. rewrite map_app. apply in_app_iff. right. now left.
  Qed.
  Lemma fold_place_perm l : forall acc, fresh l acc -> Permutation (fold_place l acc) (acc ++ l).
  Proof.
    induction l as [|[k v] l IH]; intros acc F; [now rewrite app_nil_r|]. destruct F as [F1 F2]. cbn.
    rewrite IH by exact F2. rewrite <- Permutation_middle. apply Permutation_app_tail with (tl := l) (l := memplace k v acc) (l' := (k, v) :: acc).
    clear IH F2. induction acc as [|[a w] acc IH]; [reflexivity|]. unfold mhas in *. cbn in F1 |- *.
    destruct (k <? a); [reflexivity|]. destruct (k =? a); [discriminate|]. rewrite IH by exact F1. apply perm_swap.
  Qed.

  (** ** multimaps *)
  Definition weak (l : list Z) := ascending Z.le l.
  Lemma weak_cons a (l : list Z) : weak (a :: l) <-> Forall (Z.le a) l /\ weak l.
  Proof. apply asc_cons. lia. Qed.
  Lemma mmput_keys k v l x : In x (map fst (mmput k v l)) <-> x = k \/ In x (map fst l).
  Proof.
    induction l as [|[a w] l IH]; cbn.
    - intuition.
    - destruct (k <? a); cbn; [intuition|]. rewrite IH. intuition.
  Qed.
  Lemma weak_put k v l : weak (map fst l) -> weak (map fst (mmput k v l)).
  Proof.
    induction l as [|[a w] l IH]; intros H; [exact I|]. cbn [mmput]. destruct (Z.ltb_spec k a).
    - cbn [map fst]. apply weak_cons. split; [|exact H]. cbn [map fst] in H. apply weak_cons in H. constructor; [lia|].
      eapply Forall_impl; [|exact (proj1 H)]. cbn. lia.
    - cbn [map fst] in *. apply weak_cons in H. apply weak_cons. split; [|now apply IH].
      apply Forall_forall. intros x Hx. apply mmput_keys in Hx. destruct Hx as [->|Hx]; [lia|].
      destruct H as [F _]. rewrite Forall_forall in F. auto.
  Qed.
  Lemma weak_filter (p : Z -> bool) (l : list Z) : weak l -> weak (filter p l).
  Proof.
    induction l as [|a l IH]; intros H; [exact I|]. apply weak_cons in H. destruct H as [F H]. cbn [filter].
    destruct (p a); [|apply IH, H]. apply weak_cons. split; [|apply IH, H]. apply Forall_forall. intros x Hx.
    apply filter_In in Hx. rewrite Forall_forall in F. apply F. tauto.
  Qed.
  Lemma weak_rem k l : weak (map fst l) -> weak (map fst (mrem k l)).
  Proof. intros H. rewrite mrem_keys. now apply weak_filter. Qed.
  Lemma mmrange_none k l : Forall (Z.lt k) (map fst l) -> mmrange k l = [].
  Proof.
    unfold mmrange. induction l as [|[a w] l IH]; intros F; [reflexivity|]. inversion F; subst. cbn in *.
    replace (a =? k) with false by lia. auto.
  Qed.
  Lemma mmrange_put k k' v l : weak (map fst l) ->
    mmrange k (mmput k' v l) = if k =? k' then mmrange k l ++ [v] else mmrange k l.
  Proof.
    induction l as [|[a w] l IH]; intros H.
    - unfold mmrange. cbn. rewrite Z.eqb_sym. destruct (k =? k'); reflexivity.
    - cbn [mmput]. cbn [map fst] in H. apply weak_cons in H. destruct H as [F H]. destruct (Z.ltb_spec k' a).
      + unfold mmrange at 1. cbn [filter fst]. rewrite (Z.eqb_sym k' k). destruct (Z.eqb_spec k k').
        * subst. replace (mmrange k' ((a, w) :: l)) with (@nil A); [|symmetry; apply mmrange_none].
          -- cbn [map snd app]. f_equal. apply (mmrange_none k' ((a, w) :: l)).
             cbn. constructor; [lia|]. eapply Forall_impl; [|exact F]. cbn. lia.
          -- cbn. constructor; [lia|]. eapply Forall_impl; [|exact F]. cbn. lia.
        * reflexivity.
      + specialize (IH H). unfold mmrange in *. cbn [filter fst]. destruct (a =? k); cbn [map]; rewrite IH; destruct (k =? k'); reflexivity.
  Qed.
  Lemma mmrange_rem k k' l : mmrange k (mrem k' l) = if k =? k' then [] else mmrange k l.
  Proof.
    unfold mmrange, mrem. induction l as [|[a w] l IH]; cbn.
    - now destruct (k =? k').
    - destruct (Z.eqb_spec a k'); cbn.
      + rewrite IH. destruct (Z.eqb_spec k k'); [reflexivity|]. now replace (a =? k) with false by lia.
      + destruct (Z.eqb_spec a k); cbn; rewrite IH; [|reflexivity]. now replace (k =? k') with false by lia.
  Qed.
  Lemma fold_mmput_weak l : forall acc, weak (map fst acc) -> weak (map fst (fold_mmput l acc)).
  Proof. induction l as [|[k v] l IH]; intros acc H; [exact H|]. cbn. apply IH, weak_put, H. Qed.
  Lemma fold_mmput_range l : forall acc k, weak (map fst acc) ->
    mmrange k (fold_mmput l acc) = mmrange k acc ++ mmrange k l.
  Proof.
    induction l as [|[a v] l IH]; intros acc k H; [now rewrite app_nil_r|]. cbn [fold_mmput].
    rewrite IH by now apply weak_put. rewrite mmrange_put by exact H.
    replace (mmrange k ((a, v) :: l)) with (if k =? a then v :: mmrange k l else mmrange k l).
    - destruct (k =? a); [|reflexivity]. now rewrite <- app_assoc.
    - unfold mmrange. cbn [filter fst]. rewrite (Z.eqb_sym a k). now destruct (k =? a).
  Qed.
  Lemma mmput_last k v l : Forall (fun x => x <= k) (map fst l) -> mmput k v l = l ++ [(k, v)].
  Proof.
    induction l as [|[a w] l IH]; intros F; [reflexivity|]. inversion F; subst. cbn.
    replace (k <? a) with false by lia. now rewrite IH.
  Qed.
  Lemma fold_mmput_asc l : forall acc, weak (map fst (acc ++ l)) -> fold_mmput l acc = acc ++ l.
  Proof.
    induction l as [|[k v] l IH]; intros acc H; [now rewrite app_nil_r|]. cbn. rewrite mmput_last.
    - rewrite IH; rewrite <- app_assoc; [reflexivity|exact H].
    - clear IH. induction acc as [|[a w] acc IH]; [constructor|]. cbn in H. apply weak_cons in H. destruct H as [F H].
      cbn. constructor; [|auto]. rewrite Forall_forall in F. apply F. rewrite map_app. apply in_app_iff. right. now left.
  Qed.
End Facts.
