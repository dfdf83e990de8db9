(** PropRegions.v -- C11: the regions of every table that is read or made, in order or not. *)
From Coq Require Import ZifyBool ZifyNat.
From Verif Require Import Base Disco Records RealRound RealProofs Spec LineFacts SecSpec PropRecords PropRecords2 PropRecords3 ExKit PropSec7.
Open Scope Z_scope.

(** ** specification *)
(** the numbers of the first point (from 0) and of the point after the last of region i: regions share the boundary point *)
Definition region_from (bs : list Z) (i : nat) : Z := match i with O => 0 | S j => nth j bs 0 - 1 end.
Definition points_of {A} (l : list A) (a b : Z) (r : list A) : Prop :=
  Z.of_nat (length r) = b - a /\ forall k, (k < length r)%nat -> nth_error r k = nth_error l (Z.to_nat a + k).

(** ** theorems *)
Lemma nth_firstn {A} : forall n k (l : list A), (k < n)%nat -> nth_error (firstn n l) k = nth_error l k.
Proof. induction n as [|n IH]; intros k l H; [lia|]. destruct l as [|x l]; [now destruct k|]. destruct k as [|k]; [reflexivity|]. cbn. apply IH. lia. Qed.
Lemma nth_skipn {A} : forall n k (l : list A), nth_error (skipn n l) k = nth_error l (n + k).
Proof. induction n as [|n IH]; intros k l; [reflexivity|]. destruct l as [|x l]; [now destruct k|]. cbn. apply IH. Qed.
Lemma slice_points {A} (l : list A) a b : 0 <= a <= b -> b <= Z.of_nat (length l) -> points_of l a b (slice l a b).
Proof.
  intros H K. unfold points_of, slice. assert (L : length (firstn (Z.to_nat (b - a)) (skipn (Z.to_nat a) l)) = Z.to_nat (b - a)) by (rewrite firstn_length, skipn_length; lia).
  split; [rewrite L; lia|]. intros k Hk. rewrite L in Hk. rewrite nth_firstn by exact Hk. apply nth_skipn.
Qed.
Lemma asc_last : forall bs d, ascending Z.le bs -> Forall (fun b => b <= last bs d) bs.
Proof.
  induction bs as [|a bs IH]; intros d H; [constructor|]. destruct bs as [|b bs]; [repeat constructor; cbn; lia|]. destruct H as [H1 H2]. specialize (IH d H2). change (last (a :: b :: bs) d) with (last (b :: bs) d).
  constructor; [|exact IH]. inversion IH; subst. lia.
Qed.
Lemma asc_nth : forall bs i a b, ascending Z.le bs -> nth_error bs i = Some a -> nth_error bs (S i) = Some b -> a <= b.
Proof.
  induction bs as [|x bs IH]; intros i a b H E1 E2; [now destruct i|]. destruct bs as [|y bs]; [now destruct i|]. destruct H as [H1 H2].
  destruct i as [|i]; [injection E1 as <-; injection E2 as <-; exact H1|]. exact (IH i a b H2 E1 E2).
Qed.
Lemma asc_hd : forall bs, ascending Z.le bs -> Forall (fun b => hd 0 bs <= b) bs.
Proof.
  induction bs as [|a bs IH]; intros H; [constructor|]. cbn [hd]. constructor; [lia|]. destruct bs as [|b bs]; [constructor|]. destruct H as [H1 H2]. specialize (IH H2). cbn [hd] in IH. eapply Forall_impl; [|exact IH]. cbn. lia.
Qed.
(** a region is defined exactly if it starts at a point and ends after its start, and it is then made of the points from one boundary to the next *)
Theorem C11_region : forall t i b, inv_tab1 t -> nth_error (tbnd (tbase t)) i = Some b ->
  let a := region_from (tbnd (tbase t)) i in
  (0 <= a /\ 0 <= b -> exists r, nth_error (regions t) i = Some (Val r) /\ points_of (tx t) a b (fst r) /\ points_of (ty t) a b (snd r))
  /\ (a < 0 \/ b < 0 -> nth_error (regions t) i = Some Undef).
Proof.
  intros t i b ((I1 & I2 & I3 & I4) & I5 & I6 & I7) E a. assert (L : (i < length (tbnd (tbase t)))%nat) by (apply nth_error_Some; congruence).
  assert (R : nth_error (regions t) i = Some (region t i)).
  { unfold regions. apply map_nth_error. rewrite (nth_error_nth' _ 0%nat) by (rewrite seq_length; exact L). now rewrite seq_nth. }
  rewrite R. assert (F : b <= Z.of_nat (length (tx t))) by (rewrite <- I7; assert (Q := asc_last _ 0 I3); rewrite Forall_forall in Q; apply Q, (nth_error_In _ _ E)).
  assert (AB : 0 <= b -> a <= b).
  { intros Hb. unfold a, region_from. destruct i as [|j]; [exact Hb|]. destruct (nth_error (tbnd (tbase t)) j) as [p|] eqn:Ep; [|apply nth_error_None in Ep; lia]. rewrite (nth_error_nth _ _ _ Ep). assert (K := asc_nth _ _ _ _ I3 Ep E). lia. }
  unfold region. rewrite E. fold (region_from (tbnd (tbase t)) i). change (region_from (tbnd (tbase t)) i) with a. split; intros H.
  - rewrite !subrange_val by lia. eexists. split; [reflexivity|]. cbn [fst snd]. split; apply slice_points; lia.
  - unfold subrange. replace ((0 <=? a) && (a <=? b) && (b <=? Z.of_nat (length (tx t)))) with false; [reflexivity|]. lia.
Qed.
(** so all regions of a table that is read or made are defined exactly if its first boundary is at least 1, or it has a single region *)
Theorem C11_defined : forall t, inv_tab1 t ->
  (Forall (fun r => r <> Undef) (regions t) <-> 0 < hd 0 (tbnd (tbase t)) \/ length (tbnd (tbase t)) = 1%nat).
Proof.
  intros t V. assert (W := V). destruct V as ((I1 & I2 & I3 & I4) & I5 & I6 & I7). assert (LR : length (regions t) = length (tbnd (tbase t))) by (unfold regions; rewrite map_length, seq_length; reflexivity).
  split.
  - intros F. destruct (Nat.eq_dec (length (tbnd (tbase t))) 1) as [|N]; [now right|]. left. destruct (tbnd (tbase t)) as [|b0 [|b1 bs]] eqn:EB; [congruence|cbn in N; lia|]. cbn [hd].
    destruct (Z_lt_le_dec 0 b0) as [|K]; [assumption|]. exfalso. assert (E1 : nth_error (tbnd (tbase t)) 1 = Some b1) by now rewrite EB.
    assert (U := proj2 (C11_region t 1 b1 W E1)). cbv zeta in U. rewrite EB in U. cbn [region_from nth] in U. specialize (U ltac:(lia)). apply nth_error_In in U. rewrite Forall_forall in F. exact (F _ U eq_refl).
  - intros K. apply Forall_forall. intros r Hr. apply In_nth_error in Hr. destruct Hr as (i & Hr). assert (L : (i < length (tbnd (tbase t)))%nat) by (rewrite <- LR; apply nth_error_Some; congruence).
    destruct (nth_error (tbnd (tbase t)) i) as [b|] eqn:Eb; [|apply nth_error_None in Eb; lia].
    destruct (proj1 (C11_region t i b W Eb)) as (x & Hx & _); [|rewrite Hr in Hx; injection Hx as ->; discriminate].
    assert (H := asc_hd _ I3). rewrite Forall_forall in H. destruct K as [K|K].
    + split; [|assert (Q := H b (nth_error_In _ _ Eb)); lia]. unfold region_from. destruct i as [|j]; [lia|]. assert (Q := H (nth j (tbnd (tbase t)) 0) ltac:(apply nth_In; lia)). lia.
    + assert (i = 0%nat) by lia. subst i. cbn [region_from]. split; [lia|]. destruct (tbnd (tbase t)) as [|b0 [|b1 bs]]; try discriminate K. injection Eb as <-. exact I4.
Qed.
(** and a table whose first boundary is 0 is read, but its second region starts before the first point *)
Definition xempty_region : tab1 := mktab1 (mktab2 r_pi r_one 1 2 [0; 2] [2; 2]) [r_one; r_pi] [r_pi; r_one].
Theorem C11_empty_region_refuted : make_tab1 r_pi r_one 1 2 [0; 2] [2; 2] [r_one; r_pi] [r_pi; r_one] = Val xempty_region
  /\ (exists s, rd_tab1 9228 3 102 (mkst (pr_tab1 xempty_region 9228 3 102) 0) = Ok xempty_region s) /\ nth_error (regions xempty_region) 1 = Some Undef.
Proof. split; [reflexivity|]. split; [eexists; vm_compute; reflexivity|reflexivity]. Qed.
(** a repeated boundary gives a region of one point *)
Definition xsame_boundary : tab1 := mktab1 (mktab2 r_pi r_one 1 2 [1; 1; 2] [2; 5; 2]) [r_one; r_pi] [r_pi; r_one].
Example C11_region_example : inv_tab1 xsame_boundary /\ regions xsame_boundary = [Val ([r_one], [r_pi]); Val ([r_one], [r_pi]); Val ([r_one; r_pi], [r_pi; r_one])].
Proof. split; [split; [split; [discriminate|]; split; [reflexivity|]; split; [cbn; lia|cbn; lia]|]; split; [reflexivity|]; split; [vm_compute; split; [discriminate|exact I]|reflexivity]|reflexivity]. Qed.
