(** LineFacts.v -- lines of a text, regions of a table. *)
From Coq Require Import QArith ZifyBool ZifyNat.
From Verif Require Import Base Disco DiscoProofs Records RecordProofs RecordRT RecordSound
  RealProofs Spec.
Open Scope Z_scope.

Lemma splits_nth b ls r i l : splits b ls r -> nth_error ls i = Some l -> nth_line b i = l.
Proof.
  revert b i. induction ls as [|x ls IH]; intros b [|i] H E; try discriminate; cbn [splits] in H;
    destruct H as (b' & N & S); cbn [nth_line]; rewrite N; cbn [fst snd].
  - now inversion E.
  - cbn [nth_error] in E. eapply IH; eauto.
Qed.
Lemma splits_drop b ls r : splits b ls r -> drop_lines (length ls) b = r.
Proof.
  revert b. induction ls as [|x ls IH]; intros b H; cbn [splits] in H; [exact H|].
  destruct H as (b' & N & S). cbn [length drop_lines]. rewrite N. now apply IH.
Qed.

Lemma lines_in_next b l b' : next_line b = (l, b') -> l <> [] -> lines_in b = S (lines_in b').
Proof.
  revert l b'. induction b as [|c b IH]; intros l b' H Hl; simpl in H.
  - inversion H; subst. congruence.
  - destruct (Ascii.eqb c LF) eqn:E.
    + inversion H; subst. congruence.
    + destruct (next_line b) as [l0 r0] eqn:E0. inversion H; subst.
      cbn [lines_in]. rewrite E. destruct b as [|d b].
      * simpl in E0. inversion E0; subst. reflexivity.
      * destruct l0 as [|x l0].
        -- simpl in E0. destruct (Ascii.eqb d LF) eqn:Ed.
           ++ inversion E0; subst. cbn [lines_in]. now rewrite Ed.
           ++ destruct (next_line b). discriminate.
        -- apply (IH (x :: l0)); [reflexivity|discriminate].
Qed.

Lemma splits_lines b ls r : splits b ls r -> Forall (fun l => l <> []) ls ->
  lines_in b = (length ls + lines_in r)%nat.
Proof.
  revert b. induction ls as [|x ls IH]; intros b H F; cbn [splits] in H; [subst; reflexivity|].
  destruct H as (b' & N & S). inversion F; subst.
  rewrite (lines_in_next _ _ _ N) by auto. rewrite (IH b' S) by auto. reflexivity.
Qed.

Lemma col_nil a n : col a n [] = [].
Proof. unfold col. rewrite skipn_nil. apply firstn_nil. Qed.

Lemma tail_nonempty mat mf mt l : (mat, mf, mt) <> (0, 0, 0) -> tail_is mat mf mt l -> l <> [].
Proof.
  intros H (H1 & H2 & H3) ->. rewrite col_nil in *. cbn in *. congruence.
Qed.

Lemma consumes_lines {A} mat mf mt (m : M A) s a s' :
  (mat, mf, mt) <> (0, 0, 0) -> consumes (tail_is mat mf mt) m -> m s = Ok a s' ->
  line s' - line s = Z.of_nat (lines_in (buf s)) - Z.of_nat (lines_in (buf s')).
Proof.
  intros Hn H E. destruct (H _ _ _ E) as (ls & S & L & F & _).
  rewrite (splits_lines _ _ _ S).
  - lia.
  - eapply Forall_impl; [|exact F]. intros l. now apply tail_nonempty.
Qed.

(** ** regions *)
Lemma subrange_val {A} (l : list A) a b : 0 <= a <= b -> b <= Z.of_nat (length l) ->
  subrange l a b = Val (firstn (Z.to_nat (b - a)) (skipn (Z.to_nat a) l)).
Proof.
  intros H K. unfold subrange. replace (_ && _ && _) with true; [reflexivity|]. lia.
Qed.

Fixpoint strictly (l : list Z) : Prop :=
  match l with a :: (b :: _) as l' => a < b /\ strictly l' | _ => True end.

(** elements a .. b-1 *)
Definition slice {A} (l : list A) (a b : Z) : list A :=
  firstn (Z.to_nat (b - a)) (skipn (Z.to_nat a) l).

Fixpoint regs {A} (l : list A) (prev : Z) (bs : list Z) : list (list A) :=
  match bs with
  | [] => []
  | b :: bs' => slice l prev b :: regs l (b - 1) bs'
  end.

Lemma regs_length {A} (l : list A) bs : forall p, length (regs l p bs) = length bs.
Proof. induction bs; intros; simpl; auto. Qed.

(** all entries of a strictly increasing list starting above p are above p and
    at most the last one *)
Lemma strictly_bounds bs : forall p N, strictly bs -> (forall b, In b [hd (p + 1) bs] -> p < b) ->
  last bs N <= N -> Forall (fun b => p < b <= N) bs.
Proof.
  induction bs as [|b bs IH]; intros p N H Hh Hl; [constructor|].
  assert (Hb : p < b) by (apply Hh; left; reflexivity).
  destruct bs as [|b' bs].
  - simpl in Hl. constructor; [lia|constructor].
  - destruct H as [H1 H2]. assert (F : Forall (fun x => b < x <= N) (b' :: bs)).
    { apply IH; auto. intros x [<-|[]]. exact H1. }
    constructor; [|eapply Forall_impl; [|exact F]; simpl; intros; lia].
    inversion F; subst. lia.
Qed.

Lemma regions_regs (t : tab1) : forall bs pre,
  tbnd (tbase t) = pre ++ bs -> length (tx t) = length (ty t) ->
  let prev := match pre with [] => 0 | _ => last pre 0 - 1 end in
  0 <= prev -> strictly bs -> (forall b, In b [hd (prev + 1) bs] -> prev < b) ->
  last bs (Z.of_nat (length (tx t))) <= Z.of_nat (length (tx t)) ->
  map (region t) (seq (length pre) (length bs))
    = map Val (combine (regs (tx t) prev bs) (regs (ty t) prev bs)).
Proof.
  induction bs as [|b bs IH]; intros pre E Hl prev Hp Hs Hh HN; [reflexivity|].
  assert (F := strictly_bounds (b :: bs) prev _ Hs Hh HN). inversion F as [|? ? Hb F']; subst.
  cbn [length seq map regs combine]. f_equal.
  - unfold region. rewrite E. rewrite nth_error_app2, Nat.sub_diag by lia. cbn [nth_error].
    assert (Ep : match length pre with O => 0 | S j => nth j (pre ++ b :: bs) 0 - 1 end = prev).
    { unfold prev. destruct pre as [|x pre]; [reflexivity|]. cbn [length].
      rewrite app_nth1 by (simpl; lia). f_equal.
      clear. revert x. induction pre as [|y pre IH]; intros x; [reflexivity|].
      cbn [length]. change (nth (S (length pre)) (x :: y :: pre) 0) with (nth (length pre) (y :: pre) 0).
      rewrite IH. reflexivity. }
    rewrite Ep. rewrite !subrange_val by lia. reflexivity.
  - rewrite <- Nat.add_1_r. replace (length pre + 1)%nat with (length (pre ++ [b])) by (rewrite app_length; reflexivity).
    assert (Hpb : match pre ++ [b] with [] => 0 | _ => last (pre ++ [b]) 0 - 1 end = b - 1).
    { rewrite last_last. now destruct pre. }
    assert (K := IH (pre ++ [b])). rewrite Hpb in K. apply K; auto.
    + now rewrite <- app_assoc.
    + lia.
    + destruct bs; [exact I|apply Hs].
    + intros x [<-|[]]. destruct bs as [|b' bs]; simpl; [lia|]. destruct Hs. lia.
    + destruct bs; [simpl; lia|exact HN].
Qed.

Lemma slice_tl {A} (l : list A) a b : 0 < a -> a <= b -> tl (slice l (a - 1) b) = slice l a b.
Proof.
  intros Ha Hb. unfold slice.
  replace (Z.to_nat (b - (a - 1))) with (S (Z.to_nat (b - a))) by lia.
  replace (Z.to_nat a) with (Z.to_nat (a - 1) + 1)%nat by lia. rewrite skipn_add.
  destruct (skipn (Z.to_nat (a - 1)) l) as [|x r]; [now rewrite !firstn_nil|]. reflexivity.
Qed.

Lemma slice_cat {A} (l : list A) p a b : 0 <= p -> p <= a -> a <= b ->
  slice l p a ++ slice l a b = slice l p b.
Proof.
  intros H1 H2 H3. unfold slice.
  replace (Z.to_nat (b - p)) with (Z.to_nat (a - p) + Z.to_nat (b - a))%nat by lia.
  rewrite firstn_add_app. f_equal. f_equal.
  replace (Z.to_nat a) with (Z.to_nat p + Z.to_nat (a - p))%nat by lia. apply skipn_add.
Qed.

(** dropping the shared first point of all regions but the first *)
Definition joined {A} (rs : list (list A)) : list A :=
  match rs with [] => [] | r :: rs' => r ++ flat_map (@tl A) rs' end.

Lemma last_any {A} (l : list A) a b : l <> [] -> last l a = last l b.
Proof.
  intros H. destruct (exists_last H) as (l' & x & ->). now rewrite !last_last.
Qed.

Lemma strictly_last bs : forall c, strictly (c :: bs) -> c <= last bs c.
Proof.
  induction bs as [|d bs IH]; intros c Hs; [simpl; lia|].
  destruct Hs as [H1 H2]. specialize (IH d H2).
  destruct bs as [|e bs]; [simpl; lia|].
  change (last (d :: e :: bs) c) with (last (e :: bs) c).
  rewrite (last_any (e :: bs) c d) by discriminate. lia.
Qed.
Lemma strictly_all bs : forall c, strictly (c :: bs) -> Forall (fun x => c - 1 < x) (c :: bs).
Proof.
  induction bs as [|d bs IH]; intros c Hs; constructor; try lia; [constructor|].
  destruct Hs as [H1 H2]. eapply Forall_impl; [|apply IH; exact H2]. simpl. lia.
Qed.

Lemma regs_tail_join {A} (l : list A) bs : forall b, 0 < b -> Forall (fun x => b - 1 < x) bs ->
  strictly (b :: bs) -> flat_map (@tl A) (regs l (b - 1) bs) = slice l b (last bs b).
Proof.
  induction bs as [|c bs IH]; intros b Hb F Hs.
  - simpl. unfold slice. now rewrite Z.sub_diag.
  - cbn [regs flat_map]. destruct Hs as [Hbc Hs]. rewrite slice_tl by lia.
    rewrite IH; auto; [|lia|].
    + rewrite slice_cat; try lia; [|now apply strictly_last].
      f_equal. destruct bs; [reflexivity|].
      change (last (c :: z :: bs) b) with (last (z :: bs) b). apply last_any. discriminate.
    + eapply Forall_inv_tail. now apply strictly_all.
Qed.

Lemma regs_join {A} (l : list A) b bs : 0 < b -> strictly (b :: bs) ->
  joined (regs l 0 (b :: bs)) = slice l 0 (last (b :: bs) 0).
Proof.
  intros Hb Hs. cbn [regs joined]. rewrite regs_tail_join; auto.
  - rewrite slice_cat; try lia; [|now apply strictly_last].
    f_equal. destruct bs; [reflexivity|].
    change (last (b :: z :: bs) 0) with (last (z :: bs) 0). apply last_any. discriminate.
  - eapply Forall_inv_tail. now apply strictly_all.
Qed.

(** the last point of a region is the first of the next one *)
Lemma regs_share {A} (l : list A) (d : A) bs : forall p i r r',
  0 <= p -> Forall (fun b => p < b <= Z.of_nat (length l)) bs -> strictly bs ->
  nth_error (regs l p bs) i = Some r -> nth_error (regs l p bs) (S i) = Some r' ->
  r <> [] /\ r' <> [] /\ last r d = hd d r'.
Proof.
  induction bs as [|b bs IH]; intros p i r r' Hp F Hs E E'; [destruct i; discriminate|].
  inversion F as [|? ? Hb F']; subst. cbn [regs nth_error] in *.
  destruct i as [|i].
  - destruct bs as [|c bs]; [discriminate|]. cbn [regs nth_error] in E'.
    inversion E; inversion E'; subst. clear E E'. destruct Hs as [Hbc Hs].
    inversion F' as [|? ? Hc _]; subst.
    assert (L : slice l p b <> []).
    { intros K. apply (f_equal (@length A)) in K. unfold slice in K.
      rewrite firstn_length, skipn_length in K. simpl in K. lia. }
    assert (L' : slice l (b - 1) c <> []).
    { intros K. apply (f_equal (@length A)) in K. unfold slice in K.
      rewrite firstn_length, skipn_length in K. simpl in K. lia. }
    split; [exact L|]. split; [exact L'|].
    rewrite <- (slice_cat l p (b - 1) b) by lia. unfold slice.
    replace (Z.to_nat (b - (b - 1))) with 1%nat by lia.
    replace (Z.to_nat (c - (b - 1))) with (S (Z.to_nat (c - b))) by lia.
    destruct (skipn (Z.to_nat (b - 1)) l) as [|x t] eqn:Ex.
    + apply (f_equal (@length A)) in Ex. rewrite skipn_length in Ex. simpl in Ex. lia.
    + cbn [firstn hd]. apply last_last.
  - eapply IH with (p := b - 1); eauto; try lia.
    + destruct bs as [|c bs]; [constructor|]. destruct Hs as [Hbc Hs].
      assert (G := strictly_all bs c Hs). rewrite Forall_forall in *. intros x Hx.
      specialize (G x Hx). specialize (F' x Hx). lia.
    + destruct bs; [exact I|apply Hs].
Qed.
