(** PropPy.v -- C68: the sequences of the Python module behave as Python's own. *)
From Verif Require Import Py.
From Coq Require Import ZArith List Bool Lia Zify ZifyBool ZifyNat Zquot.
Import ListNotations.
Open Scope Z_scope.

(** ** specification: the sequence operations of the Python language reference *)
Definition size {A} (l : list A) : Z := Z.of_nat (length l).
(** s[ i ]: "if i is negative, the index is relative to the end of the sequence: len( s ) + i is substituted" *)
Definition item_at {A} (l : list A) (i : Z) (a : A) : Prop :=
  nth_error l (Z.to_nat (if i <? 0 then i + size l else i)) = Some a.
(** s[ i : j : k ]: the items with index x = i + m * k for m = 0, 1, ..., stopping when j is reached (but never including
    j); i and j count from the end if they are negative, are cut to the sequence, and default to its two ends *)
Definition from_end {A} (l : list A) (i : Z) : Z := if i <? 0 then i + size l else i.
Definition slice_start {A} (l : list A) (i : option Z) (k : Z) : Z :=
  match i with
  | None => if 0 <? k then 0 else size l - 1
  | Some i => if 0 <? k then Z.max 0 (from_end l i) else Z.min (size l - 1) (from_end l i)
  end.
Definition slice_stop {A} (l : list A) (j : option Z) (k : Z) : Z :=
  match j with
  | None => if 0 <? k then size l else -1
  | Some j => if 0 <? k then Z.min (size l) (from_end l j) else Z.max (-1) (from_end l j)
  end.
Definition is_slice {A} (l : list A) (i j : option Z) (k : Z) (r : list A) : Prop :=
  forall m : nat, nth_error r m =
    let x := slice_start l i k + Z.of_nat m * k in
    if (if 0 <? k then x <? slice_stop l j k else slice_stop l j k <? x) then nth_error l (Z.to_nat x) else None.

(** ** proofs *)
Lemma py_i64_small z : 0 <= z < 2 ^ 63 -> py_i64 z = z.
Proof. intros H. unfold py_i64. rewrite Z.mod_small by lia. lia. Qed.
Lemma loop_gives {A} (v : view A) k b : forall c i start, Z.of_nat c + i < 2 ^ 32 -> 0 <= i -> start = py_u64 (b + i * k) -> distance v < 2 ^ 63 ->
  (forall j, i <= j < i + Z.of_nat c -> 0 <= b + j * k < distance v) ->
  exists r, slice_loop v c i (i + Z.of_nat c) start (py_u64 k) = Gives r /\ length r = c
    /\ forall m, (m < c)%nat -> nth_error r m = nth_error (v_elts v) (Z.to_nat (b + (i + Z.of_nat m) * k)).
Proof.
  induction c as [|c IH]; intros i start Hc Hi Es Hv H.
  - exists []. cbn [slice_loop Z.of_nat]. replace (i + 0) with i by lia. rewrite Z.ltb_irrefl. split; [reflexivity|]. split; [reflexivity|]. lia.
  - cbn [slice_loop]. replace (i <? i + Z.of_nat (S c)) with true by lia.
    assert (H0 := H i ltac:(lia)). assert (Es' : start = b + i * k) by (rewrite Es; unfold py_u64; apply Z.mod_small; lia).
    replace (py_i64 start) with (b + i * k) by (rewrite Es', py_i64_small by lia; reflexivity). unfold view_index. replace (b + i * k <? 0) with false by lia.
    destruct (nth_error (v_elts v) (Z.to_nat (b + i * k))) as [a|] eqn:Ea; [|apply nth_error_None in Ea; unfold distance in H0; lia].
    destruct (IH ((i + 1) mod 2 ^ 32) (py_u64 (start + py_u64 k))) as (r & E & L & N).
    + rewrite Z.mod_small by lia. lia.
    + rewrite Z.mod_small by lia. lia.
    + rewrite Z.mod_small by lia. rewrite Es'. unfold py_u64. rewrite Zplus_mod_idemp_r. f_equal. ring.
    + exact Hv.
    + rewrite Z.mod_small by lia. intros j Hj. apply H. lia.
    + rewrite Z.mod_small in E, N by lia. rewrite Z.mod_small by lia. replace (i + Z.of_nat (S c)) with (i + 1 + Z.of_nat c) by lia. rewrite E. exists (a :: r). split; [reflexivity|]. split; [cbn; lia|].
      intros [|m] Hm; cbn [nth_error]; [rewrite <- Ea; f_equal; f_equal; lia|]. rewrite N by lia. f_equal. f_equal. lia.
Qed.
(** the number of indices: m is below it exactly when the m-th is on the right side of the bound *)
Lemma slice_length_spec b e k m : k <> 0 -> 0 <= m -> (m < slice_length b e k <-> (if 0 <? k then b + m * k < e else e < b + m * k)).
Proof.
  intros Hk Hm. unfold slice_length. destruct (0 <? k) eqn:P.
  - replace (k <? 0) with false by lia. destruct (b <? e) eqn:Q; [|split; intros; nia].
    assert (D := Z.div_mod (e - b - 1) k Hk). assert (R := Z.mod_pos_bound (e - b - 1) k ltac:(lia)). split; intros; nia.
  - replace (k <? 0) with true by lia. destruct (e <? b) eqn:Q; [|split; intros; nia].
    assert (D := Z.div_mod (b - e - 1) (- k) ltac:(lia)). assert (R := Z.mod_pos_bound (b - e - 1) (- k) ltac:(lia)). split; intros; nia.
Qed.
Lemma slice_length_nonneg b e k : k <> 0 -> 0 <= slice_length b e k.
Proof.
  intros Hk. unfold slice_length. destruct (k <? 0) eqn:P; [destruct (e <? b) eqn:Q|destruct (b <? e) eqn:Q]; try lia.
Qed.
(** the bounds of CPython are those of the language reference as far as the elements go *)
Lemma bounds_agree n i j (k k' : Z) (A : Type) (l : list A) : size l = n -> n < 2 ^ 31 -> k <> 0 -> k' = Z.max (- (2 ^ 63 - 1)) (ssize k) ->
  let b := slice_bound (match i with None => if k' <? 0 then 2 ^ 63 - 1 else 0 | Some z => ssize z end) n k' in
  let e := slice_bound (match j with None => if k' <? 0 then - 2 ^ 63 else 2 ^ 63 - 1 | Some z => ssize z end) n k' in
  0 <= n /\ (0 < k <-> 0 < k') /\ k' <> 0
  /\ (if 0 <? k then 0 <= b <= n /\ 0 <= e <= n /\ b = Z.min n (slice_start l i k) /\ e = Z.max 0 (slice_stop l j k)
      else -1 <= b < n /\ -1 <= e < n /\ b = Z.max (-1) (slice_start l i k) /\ e = Z.min (n - 1) (slice_stop l j k)).
Proof.
  intros El Hn Hk Ek. cbv zeta. assert (0 <= n) by (unfold size in El; lia). assert (Hs : 0 < k <-> 0 < k') by (unfold ssize in Ek; lia). assert (Hk' : k' <> 0) by (unfold ssize in Ek; lia).
  split; [assumption|]. split; [exact Hs|]. split; [exact Hk'|]. clear Ek. unfold slice_start, slice_stop, from_end. rewrite El. unfold slice_bound, ssize.
  destruct (0 <? k) eqn:P.
  - assert (Q : k' <? 0 = false) by lia. rewrite Q. destruct i as [i|], j as [j|]; repeat split; repeat match goal with |- context [if ?c then _ else _] => destruct c eqn:? end; lia.
  - assert (Q : k' <? 0 = true) by lia. rewrite Q. destruct i as [i|], j as [j|]; repeat split; repeat match goal with |- context [if ?c then _ else _] => destruct c eqn:? end; lia.
Qed.
Lemma slice_length_le b e k n : k <> 0 -> 0 <= n -> (if 0 <? k then 0 <= b /\ e <= n else b < n /\ -1 <= e) -> slice_length b e k <= n.
Proof.
  intros Hk Hn H. destruct (Z_le_gt_dec (slice_length b e k) n) as [|G]; [assumption|]. exfalso.
  assert (K := proj1 (slice_length_spec b e k n Hk Hn) ltac:(lia)). destruct (0 <? k) eqn:P; nia.
Qed.

(** ** C68 *)
(** an integer key: the element the language reference names, or IndexError outside -n <= i < n *)
Theorem C68_item : forall A (l : list A) i, size l < 2 ^ 31 -> - 2 ^ 31 <= i < 2 ^ 31 ->
  (- size l <= i < size l -> exists a, item_at l i a /\ getitem (mkview RandomAccess l) (AnInt i) = Gives (inl a))
  /\ (~ - size l <= i < size l -> getitem (mkview RandomAccess l) (AnInt i) = Raises IndexError).
Proof.
  intros A l i Hn Hi. unfold getitem. cbn [v_cat]. replace ((- 2 ^ 31 <=? i) && (i <? 2 ^ 31)) with true by lia.
  unfold get_int, check_index, item_at. change (distance (mkview RandomAccess l)) with (size l). assert (0 <= size l) by (unfold size; lia).
  set (j := if i <? 0 then py_i32 (i + size l) else i). assert (Ej : j = if i <? 0 then i + size l else i) by (unfold j, py_i32; destruct (i <? 0) eqn:P; [rewrite Z.mod_small by lia; lia|reflexivity]).
  split; intros H0.
  - replace ((j <? 0) || (j >=? size l)) with false by (destruct (i <? 0) eqn:P; lia). unfold view_index. cbn [v_elts]. replace (j <? 0) with false by (destruct (i <? 0) eqn:P; lia). rewrite <- Ej.
    destruct (nth_error l (Z.to_nat j)) as [a|] eqn:Ea; [exists a; auto|]. apply nth_error_None in Ea. unfold size in *. destruct (i <? 0) eqn:P; lia.
  - replace ((j <? 0) || (j >=? size l)) with true by (destruct (i <? 0) eqn:P; lia). reflexivity.
Qed.
(** ... a Python integer that is no int is a TypeError, where a list raises IndexError *)
Theorem C68_item_refuted : forall A (l : list A) i, ~ - 2 ^ 31 <= i < 2 ^ 31 -> getitem (mkview RandomAccess l) (AnInt i) = Raises TypeError.
Proof. intros A l i H. unfold getitem. cbn [v_cat]. replace ((- 2 ^ 31 <=? i) && (i <? 2 ^ 31)) with false by lia. reflexivity. Qed.
(** ... and with 2^31 elements or more the negative indices of elements beyond int fail *)
Theorem C68_long_refuted : forall A (l : list A), 2 ^ 31 + 1 <= size l < 2 ^ 32 -> getitem (mkview RandomAccess l) (AnInt (-1)) = Raises IndexError.
Proof.
  intros A l H. unfold getitem. cbn [v_cat]. replace ((- 2 ^ 31 <=? -1) && (-1 <? 2 ^ 31)) with true by reflexivity. unfold get_int, check_index. change (distance (mkview RandomAccess l)) with (size l).
  change (-1 <? 0) with true. cbv iota zeta. assert (py_i32 (-1 + size l) < 0) by (unfold py_i32; replace ((-1 + size l + 2 ^ 31) mod 2 ^ 32) with (-1 + size l + 2 ^ 31 - 2 ^ 32); [lia|]; apply Z.mod_unique with 1; lia).
  replace (py_i32 (-1 + size l) <? 0) with true by lia. reflexivity.
Qed.
(** a slice: the list the language reference names; a zero step is a ValueError *)
Theorem C68_slice : forall A (l : list A) i j k, size l < 2 ^ 31 ->
  let step := match k with None => 1 | Some k => k end in
  (step = 0 -> getitem (mkview RandomAccess l) (ASlice i j k) = Raises ValueError)
  /\ (step <> 0 -> exists r, getitem (mkview RandomAccess l) (ASlice i j k) = Gives (inr r) /\ is_slice l i j step r).
Proof.
  intros A l i j k Hn step. unfold getitem. cbn [v_cat]. unfold get_slice, slice_unpack.
  set (k' := match k with None => 1 | Some z => Z.max (- (2 ^ 63 - 1)) (ssize z) end). assert (Ek : k' = Z.max (- (2 ^ 63 - 1)) (ssize step)) by (unfold k', step; destruct k; [reflexivity|vm_compute; reflexivity]).
  clearbody step k'. split; intros Hk.
  - replace (k' =? 0) with true by (rewrite Hk in Ek; vm_compute in Ek; lia). reflexivity.
  - destruct (bounds_agree (size l) i j step k' A l eq_refl Hn Hk Ek) as (N0 & Sg & Hk' & B). replace (k' =? 0) with false by lia. cbv zeta.
    change (distance (mkview RandomAccess l)) with (size l) in *.
    set (b := slice_bound (match i with Some z => ssize z | None => _ end) _ _) in *. set (e := slice_bound (match j with Some z => ssize z | None => _ end) _ _) in *.
    set (n := slice_length b e k'). assert (L0 : 0 <= n) by (apply slice_length_nonneg; exact Hk'). assert (L1 : n <= size l) by (apply slice_length_le; [exact Hk'|exact N0|]; destruct (0 <? step) eqn:P; replace (0 <? k') with (0 <? step) by lia; rewrite P; lia).
    destruct (loop_gives (mkview RandomAccess l) k' b (Z.to_nat n) 0 (py_u64 b)) as (r & E & Lr & Nr).
    + lia.
    + lia.
    + f_equal. lia.
    + change (distance (mkview RandomAccess l)) with (size l). lia.
    + intros m Hm. change (distance (mkview RandomAccess l)) with (size l). assert (M := proj1 (slice_length_spec b e k' m Hk' ltac:(lia)) ltac:(lia)).
      destruct (0 <? step) eqn:P; [replace (0 <? k') with true in M by lia|replace (0 <? k') with false in M by lia]; split; nia.
    + replace (py_u64 n) with (0 + Z.of_nat (Z.to_nat n)) by (unfold py_u64; rewrite Z.mod_small by lia; lia). rewrite E. exists r. split; [reflexivity|].
      intros m. cbv zeta. destruct (Nat.ltb m (Z.to_nat n)) eqn:Q.
      * apply Nat.ltb_lt in Q. rewrite Nr by exact Q. cbn [v_elts]. assert (M := proj1 (slice_length_spec b e k' (Z.of_nat m) Hk' ltac:(lia)) ltac:(lia)).
        assert (Same : b + Z.of_nat m * k' = slice_start l i step + Z.of_nat m * step /\ (if 0 <? step then slice_start l i step + Z.of_nat m * step <? slice_stop l j step else slice_stop l j step <? slice_start l i step + Z.of_nat m * step) = true).
        { destruct (0 <? step) eqn:P; [replace (0 <? k') with true in M by lia|replace (0 <? k') with false in M by lia]; destruct B as (B1 & B2 & B3 & B4).
          - assert (Es : b = slice_start l i step) by nia. assert (Em : Z.of_nat m * k' = Z.of_nat m * step) by (destruct m as [|m]; [reflexivity|]; assert (k' < 2 ^ 31) by nia; replace k' with step by (unfold ssize in Ek; lia); reflexivity). split; lia.
          - assert (Es : b = slice_start l i step) by nia. assert (Em : Z.of_nat m * k' = Z.of_nat m * step) by (destruct m as [|m]; [reflexivity|]; assert (- 2 ^ 31 - 1 < k') by nia; replace k' with step by (unfold ssize in Ek; lia); reflexivity). split; lia. }
        destruct Same as (S1 & S2). rewrite S2. f_equal. f_equal. lia.
      * apply Nat.ltb_ge in Q. rewrite (proj2 (nth_error_None r m)) by lia. assert (M : ~ (if 0 <? k' then b + Z.of_nat m * k' < e else e < b + Z.of_nat m * k')) by (intros K; apply (slice_length_spec b e k' (Z.of_nat m) Hk') in K; lia).
        destruct (if 0 <? step then _ else _) eqn:V; [exfalso|reflexivity].
        destruct (0 <? step) eqn:P; [replace (0 <? k') with true in M by lia|replace (0 <? k') with false in M by lia]; destruct B as (B1 & B2 & B3 & B4); apply M.
        -- assert (k' <= step) by (unfold ssize in Ek; lia). nia.
        -- assert (step <= k') by (unfold ssize in Ek; lia). nia.
Qed.
Lemma nth_ext {A} : forall l r : list A, (forall m, nth_error l m = nth_error r m) -> l = r.
Proof.
  induction l as [|a l IH]; intros [|b r] H; [reflexivity|specialize (H 0%nat); discriminate|specialize (H 0%nat); discriminate|].
  assert (H0 := H 0%nat). cbn in H0. injection H0 as <-. f_equal. apply IH. intros m. exact (H (Datatypes.S m)).
Qed.
(** the slice is unique *)
Lemma slice_unique {A} (l : list A) i j k r s : is_slice l i j k r -> is_slice l i j k s -> r = s.
Proof. intros H K. apply nth_ext. intros m. now rewrite (H m), (K m). Qed.
Lemma getitem_slice {A} (l : list A) i j k r : size l < 2 ^ 31 -> let step := match k with None => 1 | Some k => k end in
  step <> 0 -> is_slice l i j step r -> getitem (mkview RandomAccess l) (ASlice i j k) = Gives (inr r).
Proof. intros Hn step Hk H. destruct (proj2 (C68_slice A l i j k Hn) Hk) as (s & E & K). rewrite E. do 2 f_equal. exact (slice_unique _ _ _ _ _ _ K H). Qed.
(** v[ : ] is the whole sequence, v[ : : -1 ] its reverse, v[ a : b ] what lies between, v[ -a : ] the last a *)
(** with 2^32 elements or more in the slice the counter never reaches the end *)
Lemma loop_endless {A} (v : view A) n step : 2 ^ 32 <= n -> forall f i start, i < 2 ^ 32 -> slice_loop v f i n start step = Undefined.
Proof.
  intros Hn. induction f as [|f IH]; intros i start Hi; cbn [slice_loop]; replace (i <? n) with true by lia; [reflexivity|].
  assert (K : view_index v (py_i64 start) = Undefined \/ exists a, view_index v (py_i64 start) = Gives a) by (unfold view_index; destruct (_ <? 0); [now left|]; destruct (nth_error _ _) as [a|]; [right; now exists a|now left]).
  destruct K as [->|(a & ->)]; [reflexivity|]. rewrite IH; [reflexivity|]. apply Z.mod_pos_bound. lia.
Qed.
Theorem C68_endless_refuted : forall A (l : list A), 2 ^ 32 <= size l < 2 ^ 63 -> getitem (mkview RandomAccess l) (ASlice None None None) = Undefined.
Proof.
  intros A l H. unfold getitem. cbn [v_cat]. unfold get_slice. cbn [slice_unpack]. change (1 =? 0) with false. cbv iota. change (1 <? 0) with false. cbv iota zeta. change (distance (mkview RandomAccess l)) with (size l).
  assert (B : slice_bound 0 (size l) 1 = 0) by (unfold slice_bound; change (0 <? 0) with false; cbv iota; replace (0 >=? size l) with false by lia; reflexivity).
  assert (E : slice_bound (2 ^ 63 - 1) (size l) 1 = size l) by (unfold slice_bound; replace (2 ^ 63 - 1 <? 0) with false by reflexivity; replace (2 ^ 63 - 1 >=? size l) with true by lia; reflexivity).
  change (slice_unpack None None None) with (Some (0, 2 ^ 63 - 1, 1)). cbv beta iota. rewrite B, E. assert (N : slice_length 0 (size l) 1 = size l) by (unfold slice_length; change (1 <? 0) with false; cbv iota; replace (0 <? size l) with true by lia; rewrite Z.div_1_r; lia).
  rewrite N. rewrite loop_endless; [reflexivity| |lia]. unfold py_u64. rewrite Z.mod_small by lia. lia.
Qed.
Theorem C68_common_slices : forall A (l : list A), size l < 2 ^ 31 -> let v := mkview RandomAccess l in
  getitem v (ASlice None None None) = Gives (inr l)
  /\ getitem v (ASlice None None (Some (-1))) = Gives (inr (rev l))
  /\ (forall a b, 0 <= a <= b -> b <= size l -> getitem v (ASlice (Some a) (Some b) None) = Gives (inr (firstn (Z.to_nat (b - a)) (skipn (Z.to_nat a) l))))
  /\ (forall a, 0 < a <= size l -> getitem v (ASlice (Some (- a)) None None) = Gives (inr (skipn (Z.to_nat (size l - a)) l)))
  /\ (forall a, 0 < a <= size l -> getitem v (ASlice None (Some (- a)) None) = Gives (inr (firstn (Z.to_nat (size l - a)) l))).
Proof.
  intros A l Hn v. assert (Out : forall m, size l <= Z.of_nat m -> nth_error l m = None) by (intros m H; apply nth_error_None; unfold size in H; lia).
  assert (Fst : forall (r : list A) c m, nth_error (firstn c r) m = if Nat.ltb m c then nth_error r m else None).
  { induction r as [|x r IH]; intros [|c] [|m]; try reflexivity; cbn [firstn nth_error]; [destruct (Nat.ltb _ _); reflexivity|]. rewrite IH. reflexivity. }
  assert (Skp : forall (r : list A) c m, nth_error (skipn c r) m = nth_error r (c + m)) by (induction r as [|x r IH]; intros [|c] m; try reflexivity; [destruct m; reflexivity|cbn; apply IH]).
  split; [|split; [|split; [|split]]].
  - apply getitem_slice; [exact Hn|lia|]. intros m. unfold slice_start, slice_stop. cbn. destruct (Z.of_nat m * 1 <? size l) eqn:V; [f_equal; lia|apply Out; lia].
  - apply getitem_slice; [exact Hn|lia|]. intros m. unfold slice_start, slice_stop. cbn [Z.ltb Z.compare]. cbv zeta. destruct (Nat.ltb m (length l)) eqn:Q.
    + apply Nat.ltb_lt in Q. replace (-1 <? size l - 1 + Z.of_nat m * -1) with true by (unfold size; lia).
      rewrite (nth_error_nth' (rev l) (nth 0 l (hd (nth 0 (rev l) (match l with a :: _ => a | [] => ltac:(destruct l; [exfalso; cbn in Q; lia|assumption]) end)) l))) by (rewrite rev_length; lia).
      rewrite rev_nth by exact Q. erewrite (nth_error_nth' l) by (unfold size; lia). do 2 f_equal. unfold size. lia.
    + apply Nat.ltb_ge in Q. replace (-1 <? size l - 1 + Z.of_nat m * -1) with false by (unfold size; lia). apply nth_error_None. rewrite rev_length. exact Q.
  - intros a b Ha Hb. apply getitem_slice; [exact Hn|lia|]. intros m. unfold slice_start, slice_stop, from_end. cbn [Z.ltb Z.compare]. cbv zeta. replace (a <? 0) with false by lia. replace (b <? 0) with false by lia.
    rewrite Fst, Skp. destruct (Nat.ltb m _) eqn:Q; [apply Nat.ltb_lt in Q|apply Nat.ltb_ge in Q].
    + replace (Z.max 0 a + Z.of_nat m * 1 <? Z.min (size l) b) with true by lia. f_equal. lia.
    + replace (Z.max 0 a + Z.of_nat m * 1 <? Z.min (size l) b) with false by lia. reflexivity.
  - intros a Ha. apply getitem_slice; [exact Hn|lia|]. intros m. unfold slice_start, slice_stop, from_end. cbn [Z.ltb Z.compare]. cbv zeta. replace (- a <? 0) with true by lia. rewrite Skp.
    destruct (Z.max 0 (- a + size l) + Z.of_nat m * 1 <? size l) eqn:V; [f_equal; lia|]. apply nth_error_None. unfold size in *. lia.
  - intros a Ha. apply getitem_slice; [exact Hn|lia|]. intros m. unfold slice_start, slice_stop, from_end. cbn [Z.ltb Z.compare]. cbv zeta. replace (- a <? 0) with true by lia. rewrite Fst.
    destruct (Nat.ltb m _) eqn:Q; [apply Nat.ltb_lt in Q|apply Nat.ltb_ge in Q].
    + replace (0 + Z.of_nat m * 1 <? Z.min (size l) (- a + size l)) with true by lia. f_equal. lia.
    + replace (0 + Z.of_nat m * 1 <? Z.min (size l) (- a + size l)) with false by lia. reflexivity.
Qed.
(** len, iteration, to_list and front, for the views of both kinds *)
Theorem C68_sequence : forall A (v : view A), py_len v = size (py_iter v) /\ py_to_list v = py_iter v
  /\ (forall i, 0 <= i < py_len v -> py_len v < 2 ^ 31 -> v_cat v = RandomAccess -> exists a, nth_error (py_iter v) (Z.to_nat i) = Some a /\ getitem v (AnInt i) = Gives (inl a))
  /\ (forall a l, py_iter v = a :: l -> py_front v = Gives a).
Proof.
  intros A v. split; [reflexivity|]. split; [reflexivity|]. split.
  - intros i Hi Hn Hc. destruct v as [c l]. cbn [v_cat] in Hc. subst c. change (py_len (mkview RandomAccess l)) with (size l) in *.
    destruct (proj1 (C68_item A l i Hn ltac:(lia)) ltac:(lia)) as (a & Ia & E). exists a. split; [|exact E]. unfold item_at in Ia. replace (i <? 0) with false in Ia by lia. exact Ia.
  - intros a l E. unfold py_iter in E. unfold py_front. now rewrite E.
Qed.
(** what goes wrong: front() of an empty sequence, copy() of the bidirectional ones (the sections of a file, the files of a material,
    the materials of a tape), which cannot be indexed either *)
Theorem C68_front_refuted : forall A c, py_front (mkview c (@nil A)) = Undefined.
Proof. reflexivity. Qed.
Theorem C68_copy : forall A (l : list A), py_copy (mkview RandomAccess l) = Gives l.
Proof. reflexivity. Qed.
Theorem C68_copy_refuted : forall A (l : list A), py_copy (mkview Bidirectional l) = Raises TypeError /\ py_to_list (mkview Bidirectional l) = l
  /\ forall key, getitem (mkview Bidirectional l) key = Raises TypeError.
Proof. intros A l. split; [reflexivity|]. split; reflexivity. Qed.
Example C68_example : let v := mkview RandomAccess [10; 11; 12; 13; 14; 15; 16] in
  getitem v (AnInt (-2)) = Gives (inl 15) /\ getitem v (AnInt 7) = Raises IndexError /\ getitem v (AnInt (-8)) = Raises IndexError
  /\ getitem v (ASlice (Some (-2)) (Some (-100)) (Some (-3))) = Gives (inr [15; 12]) /\ getitem v (ASlice (Some 100) None (Some (-2))) = Gives (inr [16; 14; 12; 10])
  /\ getitem v (ASlice (Some (-100)) (Some 100) (Some (2 ^ 70))) = Gives (inr [10]) /\ getitem v (ASlice (Some 5) (Some 2) None) = Gives (inr []).
Proof. vm_compute. auto 10. Qed.
