(** PropOrder.v -- C76: a tree is determined by what its lookups say, so the order of edits
    that do not concern the same file (or the same section, or the same material number)
    does not matter.  Vocabulary: EditSpec.v. *)
From Coq Require Import ZifyBool Permutation String List.
From Verif Require Import Base Disco Records Tree Nested TreeSpec TreeGrammar TreeMaps Spec EditSpec PropTree2 PropEdit PropEdit2.
Open Scope Z_scope. Open Scope list_scope. Notation length := List.length.

(** sorted lists with the same entries are the same *)
Lemma strict_ext {A} : forall l l' : list (Z * A), ascending Z.lt (map fst l) -> ascending Z.lt (map fst l') ->
  (forall k, mfind k l = mfind k l') -> l = l'.
Proof.
  induction l as [|[k v] l IH]; intros [|[k' v'] l'] S S' H.
  - reflexivity.
  - specialize (H k'). cbn [mfind] in H. rewrite Z.eqb_refl in H. discriminate.
  - specialize (H k). cbn [mfind] in H. rewrite Z.eqb_refl in H. discriminate.
  - cbn [map fst] in S, S'. apply strict_cons in S, S'. destruct S as (F & S), S' as (F' & S').
    assert (N : forall k (l : list (Z * A)), Forall (Z.lt k) (map fst l) -> mfind k l = None).
    { intros a m Fm. apply mfind_None. intros I. rewrite Forall_forall in Fm. specialize (Fm a I). lia. }
    assert (Ek : k = k').
    { pose proof (H k) as H1. pose proof (H k') as H2. cbn [mfind] in H1, H2. rewrite Z.eqb_refl in H1, H2.
      destruct (Z.eqb_spec k k') as [E|Ne]; [exact E|]. destruct (Z.eqb_spec k' k) as [E|_]; [congruence|]. exfalso.
      assert (I1 := mfind_In k v l' (eq_sym H1)). assert (I2 := mfind_In k' v' l H2). rewrite Forall_forall in F, F'.
      specialize (F k' ltac:(apply in_map_iff; exists (k', v'); auto)). specialize (F' k ltac:(apply in_map_iff; exists (k, v); auto)). lia. }
    subst k'. assert (Ev : v = v'). { specialize (H k). cbn [mfind] in H. rewrite Z.eqb_refl in H. congruence. }
    subst v'. f_equal. apply IH; auto. intros j. specialize (H j). cbn [mfind] in H. destruct (Z.eqb_spec j k) as [Ej|Nj]; [rewrite Ej, !N by assumption; reflexivity|exact H].
Qed.
Lemma weak_ext {A} : forall l l' : list (Z * A), ascending Z.le (map fst l) -> ascending Z.le (map fst l') ->
  (forall k, mmrange k l = mmrange k l') -> l = l'.
Proof.
  induction l as [|[k v] l IH]; intros [|[k' v'] l'] S S' H.
  - reflexivity.
  - specialize (H k'). unfold mmrange in H. cbn [filter fst map] in H. rewrite Z.eqb_refl in H. discriminate.
  - specialize (H k). unfold mmrange in H. cbn [filter fst map] in H. rewrite Z.eqb_refl in H. discriminate.
  - cbn [map fst] in S, S'. apply weak_cons in S, S'. destruct S as (F & S), S' as (F' & S').
    assert (Ek : k = k').
    { assert (I : forall k (l : list (Z * A)), mmrange k l <> [] -> In k (map fst l)).
      { intros a m Hm. destruct (mmrange a m) as [|x r] eqn:E; [contradiction|]. unfold mmrange in E.
        destruct (filter (fun p => fst p =? a) m) as [|[b y] q] eqn:Ef; [discriminate|].
        assert (K : In (b, y) (filter (fun p => fst p =? a) m)) by (rewrite Ef; now left). apply filter_In in K. cbn [fst] in K.
        apply in_map_iff. exists (b, y). cbn [fst]. split; [lia|tauto]. }
      assert (H1 : In k (map fst ((k', v') :: l'))). { apply I. rewrite <- H. unfold mmrange. cbn [filter fst map]. rewrite Z.eqb_refl. discriminate. }
      assert (H2 : In k' (map fst ((k, v) :: l))). { apply I. rewrite H. unfold mmrange. cbn [filter fst map]. rewrite Z.eqb_refl. discriminate. }
      rewrite Forall_forall in F, F'. cbn [map fst] in H1, H2. destruct H1 as [H1|H1], H2 as [H2|H2]; try congruence. specialize (F k' H2). specialize (F' k H1). lia. }
    subst k'. assert (Hk := H k). unfold mmrange in Hk. cbn [filter fst map] in Hk. rewrite Z.eqb_refl in Hk. cbn [map snd] in Hk. injection Hk as <- Hk.
    f_equal. apply IH; auto. intros j. specialize (H j). unfold mmrange in H |- *. cbn [filter fst map] in H. destruct (Z.eqb_spec k j) as [Ej|Nj]; [rewrite <- Ej; exact Hk|exact H].
Qed.

(** ** A tree is determined by its lookups *)
Theorem C76_file_determined : forall f g, made_file f -> made_file g ->
  tf_mat f = tf_mat g -> tf_mf f = tf_mf g ->
  (forall mt, file_section f mt = file_section g mt) -> f = g.
Proof.
  intros [a b l] [c d l'] Wf Wg Ea Eb H. apply made_file_wf in Wf, Wg. destruct Wf as (S & _), Wg as (S' & _). cbn [tf_mat tf_mf tf_secs] in *. subst.
  f_equal. apply strict_ext; auto. intros k. specialize (H k). unfold file_section, at_ in H. cbn [tf_secs] in H. destruct (mfind k l), (mfind k l'); congruence.
Qed.
Lemma mat_ext m m' v : wfm m -> wfm m' -> shows m v -> shows m' v -> m = m'.
Proof.
  intros (S & F) (S' & F') H H'. apply shows_iff in H, H'. destruct H as (E & Hh & Hl), H' as (E' & Hh' & Hl').
  destruct m as [a l], m' as [b l']. unfold look, mat_hasMF in *. cbn [tm_mat tm_files] in *. assert (Eb : b = a) by congruence. clear E E'. subst b. f_equal. apply strict_ext; auto. intros k.
  specialize (Hh k). specialize (Hh' k). rewrite <- Hh' in Hh. unfold mhas in Hh.
  assert (L : forall j, match mfind k l with Some f => mfind j (tf_secs f) | None => None end = match mfind k l' with Some f => mfind j (tf_secs f) | None => None end) by (intros j; now rewrite Hl, Hl').
  destruct (mfind k l) as [f|] eqn:Ef, (mfind k l') as [g|] eqn:Eg; try discriminate; [|reflexivity]. f_equal.
  apply mfind_In in Ef, Eg. rewrite Forall_forall in F, F'. specialize (F _ Ef). specialize (F' _ Eg). cbn [fst snd] in F, F'.
  destruct F as (F1 & F2 & F3 & _), F' as (G1 & G2 & G3 & _). destruct f as [x y s], g as [x' y' s']. cbn [tf_mat tf_mf tf_secs] in *. subst. f_equal. now apply strict_ext.
Qed.
Theorem C76_material_determined : forall m m' v, made_mat m -> made_mat m' -> shows m v -> shows m' v ->
  m = m' /\ mat_content m = mat_content m'.
Proof. intros m m' v W W' H H'. apply made_mat_wf in W, W'. assert (E := mat_ext m m' v W W' H H'). subst. auto. Qed.
Theorem C76_tape_determined : forall T T', made_tape T -> made_tape T' -> tt_tpid T = tt_tpid T' ->
  (forall mat, tape_material T mat = tape_material T' mat) -> T = T' /\ tape_content T = tape_content T'.
Proof.
  intros T T' W W' E H. apply made_tape_wf in W, W'. destruct W as (S & _), W' as (S' & _).
  assert (K : T = T'); [|subst; auto]. destruct T as [i l], T' as [i' l']. cbn [tt_tpid tt_mats] in *. subst. f_equal. apply weak_ext; auto. intros k.
  specialize (H k). unfold tape_material, tape_has, tape_number in H. cbn [tt_mats] in H.
  destruct (mmrange k l) as [|x r], (mmrange k l') as [|y q]; [reflexivity| | |]; cbn [length] in H.
  - destruct (Z.eqb_spec (Z.of_nat (Datatypes.S (length q))) 0); [lia|]. discriminate.
  - destruct (Z.eqb_spec (Z.of_nat (Datatypes.S (length r))) 0); [lia|]. discriminate.
  - destruct (Z.eqb_spec (Z.of_nat (Datatypes.S (length r))) 0); [lia|]. destruct (Z.eqb_spec (Z.of_nat (Datatypes.S (length q))) 0); [lia|]. cbn [negb] in H. congruence.
Qed.

(** ** Edits of different files commute *)
(** the file an edit of a material concerns *)
Definition op_mf (o : mop) : Z :=
  match o with
  | InsertSection s | PutSection s => ts_mf s
  | InsertFile f | PutFile f => tf_mf f
  | RemoveFile mf | RemoveSection mf _ | InFileInsert mf _ | InFilePut mf _ | InFileRemove mf _ => mf
  end.
Definition same_at (mf : Z) (v w : view) : Prop := v_has v mf = v_has w mf /\ forall mt, v_sec v mf mt = v_sec w mf mt.
Lemma set1_other {A} (f : Z -> A) a b k : k <> b -> set1 f b a k = f k.
Proof. intros N. unfold set1. now replace (k =? b) with false by lia. Qed.
Lemma set2_other {A} (f : Z -> Z -> A) a b c k j : k <> b -> set2 f b c a k j = f k j.
Proof. intros N. unfold set2. now replace (k =? b) with false by lia. Qed.
Lemma op_mat o v : v_mat (fst (mop_spec o v)) = v_mat v.
Proof.
  destruct o as [s|s|f|f|mf|mf mt|mf s|mf s|mf mt]; cbn [mop_spec]; repeat match goal with |- context [if ?b then _ else _] => destruct b | |- context [match v_sec ?v ?a ?b with _ => _ end] => destruct (v_sec v a b) end; reflexivity.
Qed.
Lemma op_other o v k : k <> op_mf o -> same_at k (fst (mop_spec o v)) v.
Proof.
  intros N. assert (R : same_at k v v) by (split; auto).
  assert (P : forall s, k <> ts_mf s -> same_at k (put_section s v) v).
  { intros s Ns. split; cbn [put_section v_has v_sec]; [now apply set1_other|intros j; now apply set2_other]. }
  destruct o as [s|s|f|f|mf|mf mt|mf s|mf s|mf mt]; cbn [mop_spec op_mf] in *.
  - destruct (negb _); [split; cbn [fst v_has v_sec]; [now apply set1_other|reflexivity]|]. destruct (v_sec v (ts_mf s) (ts_mt s)); cbn [fst]; auto.
  - destruct (negb _); [split; cbn [fst v_has v_sec]; [now apply set1_other|reflexivity]|]. cbn [fst]. auto.
  - destruct (_ || _); auto. split; cbn [fst put_file v_has v_sec]; [now apply set1_other|intros j; now rewrite set1_other].
  - destruct (negb _); auto. split; cbn [fst put_file v_has v_sec]; [now apply set1_other|intros j; now rewrite set1_other].
  - split; cbn [fst v_has v_sec]; [now apply set1_other|intros j; now rewrite set1_other].
  - split; cbn [fst v_has v_sec]; [reflexivity|intros j; now apply set2_other].
  - destruct (negb (v_has v mf)); auto. destruct (_ || _) eqn:E; auto. assert (ts_mf s = mf) by lia. destruct (v_sec v mf (ts_mt s)); cbn [fst]; auto; apply P; congruence.
  - destruct (negb (v_has v mf)); auto. destruct (_ || _) eqn:E; auto. assert (ts_mf s = mf) by lia. cbn [fst]. apply P. congruence.
  - destruct (v_has v mf); auto. split; cbn [fst v_has v_sec]; [reflexivity|intros j; now apply set2_other].
Qed.
Lemma op_same o v w : v_mat v = v_mat w -> same_at (op_mf o) v w ->
  snd (mop_spec o v) = snd (mop_spec o w) /\ same_at (op_mf o) (fst (mop_spec o v)) (fst (mop_spec o w)).
Proof.
  intros M (Hh & Hs). assert (R : same_at (op_mf o) v w) by (split; auto).
  assert (P : forall s k, ts_mf s = k -> same_at k v w -> same_at k (put_section s v) (put_section s w)).
  { intros s k <- (A & B). split; cbn [put_section v_has v_sec]; [unfold set1; now rewrite Z.eqb_refl|]. intros j. unfold set2. rewrite Z.eqb_refl. cbn [andb]. destruct (j =? ts_mt s); auto. }
  destruct o as [s|s|f|f|mf|mf mt|mf s|mf s|mf mt]; cbn [mop_spec op_mf] in *; rewrite <- ?M, <- ?Hh, <- ?Hs.
  - destruct (negb _); [split; [reflexivity|]; split; cbn [fst v_has v_sec]; auto; unfold set1; now rewrite Z.eqb_refl|]. destruct (v_sec v (ts_mf s) (ts_mt s)); cbn [fst snd]; split; auto.
  - destruct (negb _); [split; [reflexivity|]; split; cbn [fst v_has v_sec]; auto; unfold set1; now rewrite Z.eqb_refl|]. cbn [fst snd]. split; auto.
  - destruct (_ || _); split; auto. split; cbn [fst put_file v_has v_sec]; unfold set1; rewrite Z.eqb_refl; auto.
  - destruct (negb _); split; auto. split; cbn [fst put_file v_has v_sec]; unfold set1; rewrite Z.eqb_refl; auto.
  - split; [reflexivity|]. split; cbn [fst v_has v_sec]; unfold set1; rewrite Z.eqb_refl; auto.
  - split; [reflexivity|]. split; cbn [fst v_has v_sec]; auto. intros j. unfold set2. rewrite Z.eqb_refl. cbn [andb]. destruct (j =? mt); auto.
  - destruct (negb (v_has v mf)); [cbn [fst snd]; split; auto|]. destruct (_ || _) eqn:E; [cbn [fst snd]; split; auto|]. destruct (v_sec v mf (ts_mt s)); cbn [fst snd]; split; auto; apply P; [lia|exact R].
  - destruct (negb (v_has v mf)); [cbn [fst snd]; split; auto|]. destruct (_ || _) eqn:E; [cbn [fst snd]; split; auto|]. cbn [fst snd]; split; auto; apply P; [lia|exact R].
  - destruct (v_has v mf) eqn:Ev; split; auto. split; cbn [fst v_has v_sec]; [congruence|]. intros j. unfold set2. rewrite Z.eqb_refl. cbn [andb]. destruct (j =? mt); auto.
Qed.
Lemma same_trans k u v w : same_at k u v -> same_at k v w -> same_at k u w.
Proof. intros (A & B) (C & D). split; [congruence|intros j; now rewrite B]. Qed.
Lemma same_sym k u v : same_at k u v -> same_at k v u.
Proof. intros (A & B). split; auto. Qed.
Lemma shows_same_view m v w : shows m v -> v_mat v = v_mat w -> (forall k, same_at k v w) -> shows m w.
Proof.
  intros H M E. apply shows_iff in H. apply shows_iff. destruct H as (A & B & C). split; [congruence|]. split; [intros k; rewrite B; apply E|intros k j; rewrite C; apply E].
Qed.
Lemma made_ops l : forall m, made_mat m -> Forall op_ok l -> made_mat (fst (run mop_run l m)).
Proof.
  induction l as [|o l IH]; intros m W H; [exact W|]. inversion H; subst. cbn [run]. specialize (IH (fst (mop_run o m)) ltac:(now apply mm_op) ltac:(assumption)).
  destruct (mop_run o m) as [m1 x]. cbn [fst] in IH. destruct (run mop_run l m1). exact IH.
Qed.
(** edits of different files: the same tree, the same exceptions, whatever the order *)
Theorem C76_edits_commute : forall m o o', made_mat m -> op_ok o -> op_ok o' -> op_mf o <> op_mf o' ->
  fst (run mop_run [o; o'] m) = fst (run mop_run [o'; o] m)
  /\ snd (run mop_run [o; o'] m) = rev (snd (run mop_run [o'; o] m)).
Proof.
  intros m o o' W Ho Ho' N.
  assert (F1 : Forall op_ok [o; o']) by (repeat constructor; auto). assert (F2 : Forall op_ok [o'; o]) by (repeat constructor; auto).
  destruct (C20_histories m (view_of m) [o; o'] W F1 (shows_self m)) as (S1 & X1).
  destruct (C20_histories m (view_of m) [o'; o] W F2 (shows_self m)) as (S2 & X2). rewrite X1, X2.
  set (v := view_of m) in *. cbn [run] in S1, S2 |- *.
  pose proof (op_mat o v) as M1. pose proof (op_mat o' v) as M2. pose proof (op_other o v) as O1. pose proof (op_other o' v) as O2.
  pose proof (op_same o' (fst (mop_spec o v)) v M1 (O1 (op_mf o') ltac:(congruence))) as (E1 & R1).
  pose proof (op_same o (fst (mop_spec o' v)) v M2 (O2 (op_mf o) N)) as (E2 & R2).
  destruct (mop_spec o v) as [v1 x1] eqn:D1, (mop_spec o' v) as [v2 x2] eqn:D2. cbn [fst snd] in *.
  pose proof (op_mat o' v1) as M3. pose proof (op_mat o v2) as M4. pose proof (op_other o' v1) as O3. pose proof (op_other o v2) as O4.
  destruct (mop_spec o' v1) as [v3 x3] eqn:D3, (mop_spec o v2) as [v4 x4] eqn:D4. cbn [fst snd] in *. split; [|now subst].
  assert (W1 := made_ops [o; o'] m W F1). assert (W2 := made_ops [o'; o] m W F2).
  apply made_mat_wf in W1, W2. apply (mat_ext _ _ v4 W1 W2); [|exact S2]. eapply shows_same_view; [exact S1|congruence|]. intros k.
  destruct (Z.eq_dec k (op_mf o')) as [->|N2].
  - eapply same_trans; [exact R1|]. apply same_sym. apply O4. congruence.
  - eapply same_trans; [apply O3, N2|]. destruct (Z.eq_dec k (op_mf o)) as [->|N1]; [apply same_sym; exact R2|].
    eapply same_trans; [apply O1, N1|]. apply same_sym. eapply same_trans; [apply O4, N1|]. apply O2, N2.
Qed.

(** ** Sections put in any order *)
Definition key (s : tsec) : Z * Z := (ts_mf s, ts_mt s).
Lemma puts_view l : forall v, Forall (fun s => ts_mat s = v_mat v) l -> NoDup (map key l) ->
  let r := run mop_spec (map PutSection l) v in
  snd r = map (fun _ => None) l /\ v_mat (fst r) = v_mat v
  /\ (forall k, v_has (fst r) k = v_has v k || existsb (fun s => ts_mf s =? k) l)
  /\ forall k j, v_sec (fst r) k j = match find (fun s => (ts_mf s =? k) && (ts_mt s =? j)) l with Some s => Some s | None => v_sec v k j end.
Proof.
  induction l as [|s l IH]; intros v Hm Hn r; subst r; [cbn; split; [reflexivity|]; split; [reflexivity|]; split; [intros k; now rewrite orb_false_r|reflexivity]|].
  inversion Hm as [|? ? Em Hm']; subst. cbn [map] in Hn. inversion Hn as [|? ? Hi Hn']; subst.
  cbn [map run]. change (mop_spec (PutSection s) v) with (if negb (ts_mat s =? v_mat v) then (mkview (v_mat v) (set1 (v_has v) (ts_mf s) true) (v_sec v), Some EStd) else (put_section s v, None)).
  rewrite Em, Z.eqb_refl. cbn [negb]. destruct (IH (put_section s v)) as (A & B & C & D); [exact Hm'|exact Hn'|].
  destruct (run mop_spec (map PutSection l) (put_section s v)) as [v' xs]. cbn [fst snd] in *. split; [now rewrite A|]. split; [exact B|]. split.
  - intros k. rewrite C. cbn [put_section v_has existsb]. unfold set1. destruct (Z.eqb_spec k (ts_mf s)) as [->|N].
    + rewrite Z.eqb_refl. cbn [orb]. now rewrite orb_true_r.
    + replace (ts_mf s =? k) with false by lia. reflexivity.
  - intros k j. rewrite D. cbn [find put_section v_sec]. unfold set2. destruct (find (fun s0 => (ts_mf s0 =? k) && (ts_mt s0 =? j)) l) as [s'|] eqn:Ef.
    + apply find_some in Ef. destruct Ef as (I' & E'). destruct ((ts_mf s =? k) && (ts_mt s =? j)) eqn:E; [|reflexivity]. exfalso. apply Hi. apply in_map_iff. exists s'. split; [|exact I']. unfold key. f_equal; lia.
    + rewrite (Z.eqb_sym k), (Z.eqb_sym j). destruct ((ts_mf s =? k) && (ts_mt s =? j)); reflexivity.
Qed.
Lemma find_perm (p : tsec -> bool) l l' : Permutation l l' -> (forall a b, In a l -> In b l -> p a = true -> p b = true -> a = b) -> find p l = find p l'.
Proof.
  intros P U. assert (G : forall l, match find p l with Some s => In s l /\ p s = true | None => forall s, In s l -> p s = false end).
  { intros q. destruct (find p q) as [s|] eqn:E; [now apply find_some|]. intros s. now apply find_none. }
  pose proof (G l) as H. pose proof (G l') as H'. destruct (find p l) as [s|], (find p l') as [s'|].
  - f_equal. destruct H as (I1 & P1), H' as (I2 & P2). apply U; auto. eapply Permutation_in; [apply Permutation_sym, P|exact I2].
  - destruct H as (I1 & P1). rewrite (H' s) in P1; [discriminate|]. eapply Permutation_in; eauto.
  - destruct H' as (I1 & P1). rewrite (H s') in P1; [discriminate|]. eapply Permutation_in; [apply Permutation_sym, P|exact I1].
  - reflexivity.
Qed.
Lemma nodup_key l a b : NoDup (map key l) -> In a l -> In b l -> key a = key b -> a = b.
Proof.
  induction l as [|s l IH]; [intros _ []|]. cbn [map]. intros N Ia Ib E. inversion N as [|? ? Hi N']; subst.
  destruct Ia as [<-|Ia], Ib as [<-|Ib]; auto.
  - elim Hi. rewrite E. now apply in_map.
  - elim Hi. rewrite <- E. now apply in_map.
Qed.
Theorem C76_sections_any_order : forall m l l', made_mat m -> Forall (fun s => ts_mat s = tm_mat m) l ->
  NoDup (map key l) -> Permutation l l' ->
  fst (run mop_run (map PutSection l) m) = fst (run mop_run (map PutSection l') m)
  /\ snd (run mop_run (map PutSection l) m) = map (fun _ => None) l.
Proof.
  intros m l l' W Hm Hn P. set (v := view_of m).
  assert (Ok : forall q, Forall op_ok (map PutSection q)) by (intros q; apply Forall_map, Forall_forall; intros s _; exact I).
  destruct (C20_histories m v (map PutSection l) W (Ok l) (shows_self m)) as (S1 & X1).
  destruct (C20_histories m v (map PutSection l') W (Ok l') (shows_self m)) as (S2 & _).
  assert (Hm' : Forall (fun s => ts_mat s = v_mat v) l') by (eapply Permutation_Forall; eauto).
  assert (Hn' : NoDup (map key l')) by (eapply Permutation_NoDup; [apply Permutation_map, P|exact Hn]).
  destruct (puts_view l v Hm Hn) as (A & B & C & D). destruct (puts_view l' v Hm' Hn') as (A' & B' & C' & D'). split; [|now rewrite X1].
  assert (W1 := made_ops _ m W (Ok l)). assert (W2 := made_ops _ m W (Ok l')). apply made_mat_wf in W1, W2.
  apply (mat_ext _ _ _ W1 W2 S1). eapply shows_same_view; [exact S2|congruence|]. intros k. split.
  - rewrite C, C'. f_equal. apply Bool.eq_iff_eq_true. rewrite !existsb_exists. split; intros (s & I1 & E); exists s; (split; [|exact E]); [exact (Permutation_in s (Permutation_sym P) I1)|exact (Permutation_in s P I1)].
  - intros j. rewrite D, D'. erewrite find_perm; [reflexivity|apply Permutation_sym, P|].
    intros a b Ia Ib Ea Eb. apply (nodup_key l' a b Hn' Ia Ib). unfold key. f_equal; lia.
Qed.

(** ** Materials: only the order among those with the same MAT matters *)
Lemma inserts_range l : forall T k, ascending Z.le (map fst (tt_mats T)) ->
  ascending Z.le (map fst (tt_mats (fold_left (fun T m => tape_insert m T) l T)))
  /\ mmrange k (tt_mats (fold_left (fun T m => tape_insert m T) l T)) = mmrange k (tt_mats T) ++ filter (fun m => tm_mat m =? k) l.
Proof.
  induction l as [|m l IH]; intros T k S; cbn [fold_left filter]; [now rewrite app_nil_r|].
  destruct (IH (tape_insert m T) k) as (A & B); [cbn [tape_insert tt_mats]; now apply weak_put|]. split; [exact A|]. rewrite B. cbn [tape_insert tt_mats]. rewrite mmrange_put by exact S.
  rewrite (Z.eqb_sym k). destruct (tm_mat m =? k); [now rewrite <- app_assoc|reflexivity].
Qed.
Theorem C76_materials_any_order : forall T l l', made_tape T -> Forall made_mat l -> Forall made_mat l' ->
  (forall mat, filter (fun m => tm_mat m =? mat) l = filter (fun m => tm_mat m =? mat) l') ->
  fold_left (fun T m => tape_insert m T) l T = fold_left (fun T m => tape_insert m T) l' T.
Proof.
  intros T l l' W _ _ H. apply made_tape_wf in W. destruct W as (S & _).
  assert (I : forall q, tt_tpid (fold_left (fun T m => tape_insert m T) q T) = tt_tpid T).
  { intros q. generalize T at 1 2. induction q as [|m q IH]; intros T0; [reflexivity|]. cbn [fold_left]. now rewrite IH. }
  pose proof (I l) as I1. pose proof (I l') as I2. pose proof (fun k => inserts_range l T k S) as R1. pose proof (fun k => inserts_range l' T k S) as R2.
  destruct (fold_left _ l T) as [i a], (fold_left _ l' T) as [i' a']. cbn [tt_tpid tt_mats] in *. subst. f_equal.
  apply weak_ext; [apply (R1 0)|apply (R2 0)|]. intros k. destruct (R1 k) as (_ & ->), (R2 k) as (_ & ->). now rewrite H.
Qed.
(** two histories of edits with the same outcome on finite maps end in the same tree and the same text *)
Theorem C76_histories : forall m m' v v' l l', made_mat m -> made_mat m' -> shows m v -> shows m' v' ->
  Forall op_ok l -> Forall op_ok l' ->
  v_mat (fst (run mop_spec l v)) = v_mat (fst (run mop_spec l' v')) ->
  (forall k, same_at k (fst (run mop_spec l v)) (fst (run mop_spec l' v'))) ->
  fst (run mop_run l m) = fst (run mop_run l' m')
  /\ mat_content (fst (run mop_run l m)) = mat_content (fst (run mop_run l' m')).
Proof.
  intros m m' v v' l l' W W' S S' Ho Ho' Em E.
  destruct (C20_histories m v l W Ho S) as (S1 & _). destruct (C20_histories m' v' l' W' Ho' S') as (S2 & _).
  assert (K : fst (run mop_run l m) = fst (run mop_run l' m')); [|split; [exact K|now rewrite K]].
  apply (mat_ext _ _ (fst (run mop_spec l' v'))); [apply made_mat_wf, made_ops; auto|apply made_mat_wf, made_ops; auto| |exact S2].
  eapply shows_same_view; eauto.
Qed.

(** sections inserted into a material that has none of them, in any order *)
Lemma inserts_puts l : forall v, Forall (fun s => ts_mat s = v_mat v) l -> NoDup (map key l) ->
  (forall s, In s l -> v_sec v (ts_mf s) (ts_mt s) = None) ->
  run mop_spec (map InsertSection l) v = run mop_spec (map PutSection l) v.
Proof.
  induction l as [|s l IH]; intros v Hm Hn H; [reflexivity|]. inversion Hm as [|? ? Em Hm']; subst. cbn [map] in Hn. inversion Hn as [|? ? Hi Hn']; subst.
  assert (E : mop_spec (InsertSection s) v = (put_section s v, None)). { cbn [mop_spec]. rewrite Em, Z.eqb_refl, (H s (or_introl eq_refl)). reflexivity. }
  assert (E' : mop_spec (PutSection s) v = (put_section s v, None)). { cbn [mop_spec]. rewrite Em, Z.eqb_refl. reflexivity. }
  cbn [map run]. rewrite E, E', IH; auto. intros s' I'. cbn [put_section v_sec]. unfold set2. destruct ((ts_mf s' =? ts_mf s) && (ts_mt s' =? ts_mt s)) eqn:B; [|apply H; now right].
  exfalso. apply Hi. apply in_map_iff. exists s'. split; [unfold key; f_equal; lia|exact I'].
Qed.
Theorem C76_inserted_any_order : forall m l l', made_mat m -> Forall (fun s => ts_mat s = tm_mat m) l ->
  NoDup (map key l) -> (forall s, In s l -> mat_hasMFMT m (ts_mf s) (ts_mt s) = false) -> Permutation l l' ->
  fst (run mop_run (map InsertSection l) m) = fst (run mop_run (map InsertSection l') m)
  /\ snd (run mop_run (map InsertSection l) m) = map (fun _ => None) l
  /\ forall s, In s l -> mat_section (fst (run mop_run (map InsertSection l) m)) (ts_mf s) (ts_mt s) = Val s.
Proof.
  intros m l l' W Hm Hn Hf P. set (v := view_of m).
  assert (Ok : forall q, Forall op_ok (map InsertSection q)) by (intros q; apply Forall_map, Forall_forall; intros s _; exact I).
  destruct (C20_histories m v (map InsertSection l) W (Ok l) (shows_self m)) as (S1 & X1).
  destruct (C20_histories m v (map InsertSection l') W (Ok l') (shows_self m)) as (S2 & _).
  assert (Hm' : Forall (fun s => ts_mat s = v_mat v) l') by (eapply Permutation_Forall; eauto).
  assert (Hn' : NoDup (map key l')) by (eapply Permutation_NoDup; [apply Permutation_map, P|exact Hn]).
  assert (Fr : forall s, In s l -> v_sec v (ts_mf s) (ts_mt s) = None).
  { intros s Is. specialize (Hf s Is). destruct (shows_self m) as (_ & _ & H & _). rewrite H in Hf. fold v in Hf. destruct (v_sec v (ts_mf s) (ts_mt s)); [discriminate|reflexivity]. }
  assert (Fr' : forall s, In s l' -> v_sec v (ts_mf s) (ts_mt s) = None) by (intros s Is; apply Fr; exact (Permutation_in s (Permutation_sym P) Is)).
  rewrite (inserts_puts l v Hm Hn Fr) in S1, X1. rewrite (inserts_puts l' v Hm' Hn' Fr') in S2.
  destruct (puts_view l v Hm Hn) as (A & B & C & D). destruct (puts_view l' v Hm' Hn') as (A' & B' & C' & D'). split; [|split; [now rewrite X1|]].
  - assert (W1 := made_ops _ m W (Ok l)). assert (W2 := made_ops _ m W (Ok l')). apply made_mat_wf in W1, W2.
    apply (mat_ext _ _ _ W1 W2 S1). eapply shows_same_view; [exact S2|congruence|]. intros k. split.
    + rewrite C, C'. f_equal. apply Bool.eq_iff_eq_true. rewrite !existsb_exists. split; intros (s & I1 & E); exists s; (split; [|exact E]); [exact (Permutation_in s (Permutation_sym P) I1)|exact (Permutation_in s P I1)].
    + intros j. rewrite D, D'. erewrite find_perm; [reflexivity|apply Permutation_sym, P|].
      intros a b Ia Ib Ea Eb. apply (nodup_key l' a b Hn' Ia Ib). unfold key. f_equal; lia.
  - intros s Is. destruct S1 as (_ & _ & _ & H). rewrite H, D. destruct (find (fun s0 => (ts_mf s0 =? ts_mf s) && (ts_mt s0 =? ts_mt s)) l) as [s'|] eqn:Ef.
    + apply find_some in Ef. destruct Ef as (I' & E). f_equal. apply (nodup_key l s' s Hn I' Is). unfold key. f_equal; lia.
    + exfalso. apply (find_none _ _ Ef) in Is. lia.
Qed.

(** ** Examples *)
Definition o_1 := mktsec 125 3 1 (txt "a"%string ++ [LF]).
Definition o_2 := mktsec 125 1 451 (txt "b"%string ++ [LF]).
Definition o_3 := mktsec 125 3 102 (txt "c"%string ++ [LF]).
Example C76_example : let m := mktmat 125 [] in made_mat m /\ Forall (fun s => ts_mat s = tm_mat m) [o_1; o_2; o_3]
  /\ NoDup (map key [o_1; o_2; o_3]) /\ (forall s, In s [o_1; o_2; o_3] -> mat_hasMFMT m (ts_mf s) (ts_mt s) = false)
  /\ Permutation [o_1; o_2; o_3] [o_3; o_2; o_1]
  /\ fst (run mop_run (map InsertSection [o_3; o_2; o_1]) m)
     = mktmat 125 [(1, mktfile 125 1 [(451, o_2)]); (3, mktfile 125 3 [(1, o_1); (102, o_3)])].
Proof.
  cbv zeta. split; [constructor|]. split; [repeat constructor|]. split; [|split; [|split; [|vm_compute; reflexivity]]].
  - repeat constructor; vm_compute; intuition discriminate.
  - intros s _. reflexivity.
  - apply (Permutation_rev [o_1; o_2; o_3]).
Qed.
Example C76_example_commute : op_mf (RemoveFile 3) <> op_mf (InFilePut 1 o_2)
  /\ snd (run mop_run [RemoveFile 3; InFilePut 1 o_2] (mktmat 125 [])) = [None; Some EOor].
Proof. split; [discriminate|vm_compute; reflexivity]. Qed.
(** the order does matter for two sections with the same MF and MT, for two edits of one file, and for two materials with the same MAT *)
Theorem C76_order_matters_refuted :
  (let a := mktsec 125 3 1 [LF] in key a = key o_1
     /\ fst (run mop_run [PutSection a; PutSection o_1] (mktmat 125 [])) <> fst (run mop_run [PutSection o_1; PutSection a] (mktmat 125 [])))
  /\ fst (run mop_run [RemoveFile 3; PutSection o_1] (mktmat 125 [])) <> fst (run mop_run [PutSection o_1; RemoveFile 3] (mktmat 125 []))
  /\ exists m m', tm_mat m = tm_mat m' /\ made_mat m /\ made_mat m'
     /\ tape_insert m (tape_insert m' (mkttape None [])) <> tape_insert m' (tape_insert m (mkttape None [])).
Proof.
  split; [split; [reflexivity|vm_compute; discriminate]|]. split; [vm_compute; discriminate|].
  exists (mktmat 125 []), (fst (mop_run (PutSection o_1) (mktmat 125 []))). split; [reflexivity|]. split; [constructor|]. split; [apply mm_op; [exact Logic.I|constructor]|]. vm_compute. discriminate.
Qed.
Example C76_example_materials : let m := mktmat 125 [] in let m' := mktmat 126 [] in let m2 := fst (mop_run (PutSection o_1) m) in
  [m; m'; m2] <> [m'; m; m2] /\ (forall mat, filter (fun x => tm_mat x =? mat) [m; m'; m2] = filter (fun x => tm_mat x =? mat) [m'; m; m2])
  /\ Forall made_mat [m; m'; m2].
Proof.
  cbv zeta. split; [discriminate|]. split.
  - assert (G : forall k, tm_mat (mktmat k []) = k) by reflexivity.
    assert (G2 : tm_mat (fst (mop_run (PutSection o_1) (mktmat 125 []))) = 125) by reflexivity.
    intros mat. generalize dependent (fst (mop_run (PutSection o_1) (mktmat 125 []))). intros m2 G2. unfold filter. rewrite !G, G2.
    destruct (Z.eqb_spec 125 mat) as [A|A], (Z.eqb_spec 126 mat) as [B|B]; try reflexivity. exfalso. lia.
  - constructor; [constructor|]. constructor; [constructor|]. constructor; [|constructor]. apply mm_op; [exact Logic.I|constructor].
Qed.
