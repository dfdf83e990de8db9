(** RecordSound.v -- what a successful read says about the text; which
    exceptions escape. *)
From Coq Require Import ZifyBool ZifyNat.
From Verif Require Import Base Disco DiscoProofs Records RecordProofs RecordRT.
Ltac Zify.zify_post_hook ::= Z.div_mod_to_equations.
Open Scope Z_scope.

(** the line carries MAT, MF, MT in columns 67-70, 71-72, 73-75 *)
Definition tail_is (mat mf mt : Z) (l : text) : Prop :=
  read_int (col 66 4 l) = Some mat /\ read_int (col 70 2 l) = Some mf
  /\ read_int (col 72 3 l) = Some mt.

(** readers that stay within a line, moving [w] columns *)
Definition inline {A} (w : nat) (m : M A) : Prop :=
  forall o l b s a s', inl o l b s -> m s = Ok a s' -> (inl (o + w) l b s' /\ line s' = line s)
    /\ forall b' t, inl o l b' t -> exists t', m t = Ok a t' /\ inl (o + w) l b' t' /\ line t' = line t.

Lemma inline_ret {A} (a : A) : inline 0 (ret a).
Proof.
  intros o l b s x s' H E. inversion E; subst. rewrite Nat.add_0_r. split; [auto|]. intros b' t K. exists t. auto.
Qed.
Lemma inline_bind {A B} w1 w2 (m : M A) (f : A -> M B) :
  inline w1 m -> (forall a, inline w2 (f a)) -> inline (w1 + w2) (bind m f).
Proof.
  intros H1 H2 o l b s x s'' H E. apply bind_ok in E. destruct E as (a & s' & E1 & E2).
  destruct (H1 _ _ _ _ _ _ H E1) as [[I1 L1] D1].
  destruct (H2 a _ _ _ _ _ _ I1 E2) as [[I2 L2] D2].
  rewrite Nat.add_assoc. split; [split; congruence|].
  intros b' t K. destruct (D1 _ _ K) as (t1 & T1 & J1 & M1). destruct (D2 _ _ J1) as (t2 & T2 & J2 & M2).
  exists t2. unfold bind. rewrite T1. split; [exact T2|]. split; congruence.
Qed.
Lemma inline_int w : inline w (rd_int w).
Proof.
  intros o l b s a s' H E. destruct (rd_int_inl _ _ _ _ _ _ _ H E) as (K & I1 & L1). split; [auto|].
  intros b' t J. destruct (rd_field_inl o l b' t w J) as (t1 & E1 & J1 & M1). exists t1. unfold rd_int, bind. rewrite E1, K. auto.
Qed.
Lemma inline_real : inline 11 rd_real.
Proof.
  intros o l b s a s' H E. destruct (rd_real_inl _ _ _ _ _ _ H E) as (K & I1 & L1). split; [auto|].
  intros b' t J. destruct (rd_field_inl o l b' t 11 J) as (t1 & E1 & J1 & M1). exists t1. unfold rd_real, bind. rewrite E1, K. auto.
Qed.
Lemma inline_chars w : inline w (rd_chars w).
Proof.
  intros o l b s a s' H E. destruct (rd_chars_inl _ _ _ _ _ _ _ H E) as (-> & I1 & L1). split; [auto|].
  intros b' t J. destruct (rd_field_inl o l b' t w J) as (t1 & E1 & J1 & M1). exists t1. unfold rd_chars, bind. rewrite E1. auto.
Qed.
Lemma inline_require b : inline 0 (require b).
Proof. destruct b; [apply inline_ret|]. intros o l b s a s' H E. discriminate. Qed.

Lemma inline_eq {A} w w' (m : M A) : inline w m -> w = w' -> inline w' m.
Proof. now intros H <-. Qed.

Lemma inline_base : inline 66 rd_base.
Proof.
  unfold rd_base. eapply inline_eq.
  - eapply inline_bind; [apply inline_real|intros].
    eapply inline_bind; [apply inline_real|intros].
    eapply inline_bind; [apply inline_int|intros].
    eapply inline_bind; [apply inline_int|intros].
    eapply inline_bind; [apply inline_int|intros].
    eapply inline_bind; [apply inline_int|intros]. apply inline_ret.
  - reflexivity.
Qed.

(** what rd_base returns is what is in the columns *)
Definition base_cols (l : text) (c : cont) : Prop :=
  read_real (col 0 11 l) = Some (c1 c) /\ read_real (col 11 11 l) = Some (c2 c)
  /\ read_int (col 22 11 l) = Some (l1 c) /\ read_int (col 33 11 l) = Some (l2 c)
  /\ read_int (col 44 11 l) = Some (n1 c) /\ read_int (col 55 11 l) = Some (n2 c).

Lemma rd_base_cols l b s c s' :
  inl 0 l b s -> rd_base s = Ok c s' ->
  base_cols l c /\ inl 66 l b s' /\ line s' = line s.
Proof.
  intros H E. unfold rd_base in E.
  apply bind_ok in E. destruct E as (x1 & s1 & E1 & E).
  apply bind_ok in E. destruct E as (x2 & s2 & E2 & E).
  apply bind_ok in E. destruct E as (x3 & s3 & E3 & E).
  apply bind_ok in E. destruct E as (x4 & s4 & E4 & E).
  apply bind_ok in E. destruct E as (x5 & s5 & E5 & E).
  apply bind_ok in E. destruct E as (x6 & s6 & E6 & E).
  destruct (rd_real_inl _ _ _ _ _ _ H E1) as (K1 & I1 & L1).
  destruct (rd_real_inl _ _ _ _ _ _ I1 E2) as (K2 & I2 & L2).
  destruct (rd_int_inl _ _ _ _ _ _ _ I2 E3) as (K3 & I3 & L3).
  destruct (rd_int_inl _ _ _ _ _ _ _ I3 E4) as (K4 & I4 & L4).
  destruct (rd_int_inl _ _ _ _ _ _ _ I4 E5) as (K5 & I5 & L5).
  destruct (rd_int_inl _ _ _ _ _ _ _ I5 E6) as (K6 & I6 & L6).
  inversion E; subst. cbn [c1 c2 l1 l2 n1 n2 Nat.add] in *.
  split; [repeat split; assumption|]. split; [exact I6|congruence].
Qed.

Lemma rd_tail_cols l b s m f t s' :
  inl 66 l b s -> rd_tail s = Ok (m, f, t) s' ->
  tail_is m f t l /\ buf s' = b /\ line s' = line s + 1.
Proof.
  intros H E. unfold rd_tail in E.
  apply bind_ok in E. destruct E as (x1 & s1 & E1 & E).
  apply bind_ok in E. destruct E as (x2 & s2 & E2 & E).
  apply bind_ok in E. destruct E as (x3 & s3 & E3 & E).
  apply bind_ok in E. destruct E as (x4 & s4 & E4 & E).
  apply bind_ok in E. destruct E as (x5 & s5 & E5 & E).
  destruct (rd_int_inl _ _ _ _ _ _ _ H E1) as (K1 & I1 & L1).
  destruct (rd_int_inl _ _ _ _ _ _ _ I1 E2) as (K2 & I2 & L2).
  destruct (rd_int_inl _ _ _ _ _ _ _ I2 E3) as (K3 & I3 & L3).
  destruct (rd_eol_inl _ _ _ _ _ _ I3 E4) as (B4 & L4).
  unfold inc_line in E5. inversion E5; subst. inversion E; subst. cbn [buf line].
  split; [repeat split; assumption|]. split; [reflexivity|lia].
Qed.

Lemma verify_cols mat mf mt l b s u s' :
  inl 66 l b s -> verify_tail mat mf mt s = Ok u s' ->
  tail_is mat mf mt l /\ buf s' = b /\ line s' = line s + 1.
Proof.
  intros H E. unfold verify_tail in E.
  apply bind_ok in E. destruct E as ([[m f] t] & s1 & E1 & E).
  destruct (rd_tail_cols _ _ _ _ _ _ _ H E1) as (K & B & L).
  destruct (Z.eqb_spec t mt); [|discriminate].
  destruct (Z.eqb_spec f mf); [|discriminate].
  destruct (Z.eqb_spec m mat); [|discriminate].
  unfold bind, ret in E. inversion E; subst. auto.
Qed.

(** a reader that, started at column [o], finishes the line (satisfying P) and
    then consumes whole lines satisfying P *)
Definition endline {A} (P : text -> Prop) (o : nat) (m : M A) : Prop :=
  forall l b s a s', inl o l b s -> m s = Ok a s' ->
    exists ls, splits b ls (buf s') /\ line s' = line s + 1 + Z.of_nat (length ls)
               /\ P l /\ Forall P ls
               /\ forall b' r t, inl o l b' t -> splits b' ls r -> m t = Ok a (mkst r (line t + 1 + Z.of_nat (length ls))).

Lemma endline_bind {A B} P o w (m : M A) (f : A -> M B) :
  inline w m -> (forall a, endline P (o + w) (f a)) -> endline P o (bind m f).
Proof.
  intros H1 H2 l b s x s'' H E. apply bind_ok in E. destruct E as (a & s' & E1 & E2).
  destruct (H1 _ _ _ _ _ _ H E1) as [[I1 L1] D1].
  destruct (H2 a _ _ _ _ _ I1 E2) as (ls & S & L & F1 & F2 & D2).
  exists ls. rewrite <- L1. repeat (split; [auto|]). intros b' r t J K.
  destruct (D1 _ _ J) as (t1 & T1 & J1 & M1). unfold bind. rewrite T1, (D2 _ _ _ J1 K), M1. reflexivity.
Qed.
Lemma rd_tail_again m f x l b t : tail_is m f x l -> inl 66 l b t -> rd_tail t = Ok (m, f, x) (mkst b (line t + 1)).
Proof.
  intros (K1 & K2 & K3) J. unfold rd_tail, bind.
  destruct (rd_field_inl _ _ _ t 4 J) as (t1 & E1 & J1 & M1). unfold rd_int at 1, bind. rewrite E1, K1.
  destruct (rd_field_inl _ _ _ t1 2 J1) as (t2 & E2 & J2 & M2). unfold of_opt, ret. unfold rd_int at 1, bind. rewrite E2. cbn [Nat.add]. rewrite K2.
  destruct (rd_field_inl _ _ _ t2 3 J2) as (t3 & E3 & J3 & M3). unfold of_opt, ret. unfold rd_int at 1, bind. rewrite E3. cbn [Nat.add]. rewrite K3.
  unfold of_opt, ret. unfold rd_eol. unfold inl in J3. rewrite J3. unfold inc_line. cbn [snd buf line]. do 2 f_equal. lia.
Qed.
Lemma verify_again mat mf mt l b t : tail_is mat mf mt l -> inl 66 l b t -> verify_tail mat mf mt t = Ok tt (mkst b (line t + 1)).
Proof. intros K J. unfold verify_tail, bind. rewrite (rd_tail_again _ _ _ _ _ _ K J), !Z.eqb_refl. reflexivity. Qed.
Lemma endline_verify {B} mat mf mt (k : unit -> M B) :
  (forall u, consumes (tail_is mat mf mt) (k u)) ->
  endline (tail_is mat mf mt) 66 (bind (verify_tail mat mf mt) k).
Proof.
  intros Hk l b s x s'' H E. apply bind_ok in E. destruct E as (a & s' & E1 & E2).
  destruct (verify_cols _ _ _ _ _ _ _ _ H E1) as (K & Bf & L).
  destruct (Hk _ _ _ _ E2) as (ls & S & L' & F & D).
  exists ls. subst b. split; [exact S|]. split; [lia|]. split; [auto|]. split; [auto|].
  intros b' r t J K'. unfold bind. rewrite (verify_again _ _ _ _ _ _ K J). destruct a. apply D, K'.
Qed.
Lemma consumes_endline {A} P (m : M A) : endline P 0 m -> consumes P m.
Proof.
  intros H s a s' E. destruct (inl_any s) as (l & b & N & I).
  destruct (H _ _ _ _ _ I E) as (ls & S & L & F1 & F2 & D).
  exists (l :: ls). simpl. split; [exists b; auto|]. split; [lia|]. split; [auto|].
  intros b' r ln (b1 & N1 & K). rewrite (D b1 r (mkst b' ln)); [|exact N1|exact K]. cbn [line length]. do 2 f_equal. lia.
Qed.


Lemma consumes_cont mat mf mt : consumes (tail_is mat mf mt) (rd_cont mat mf mt).
Proof.
  unfold rd_cont. apply consumes_on_err, consumes_endline.
  eapply endline_bind; [apply inline_base|intros c]. apply endline_verify.
  intros. apply consumes_ret.
Qed.
Lemma consumes_text mat mf mt : consumes (tail_is mat mf mt) (rd_text mat mf mt).
Proof.
  unfold rd_text. apply consumes_on_err, consumes_endline.
  eapply endline_bind; [apply inline_chars|intros c]. apply endline_verify.
  intros. apply consumes_ret.
Qed.
Lemma consumes_dir mat mf mt : consumes (tail_is mat mf mt) (rd_dir mat mf mt).
Proof.
  unfold rd_dir. apply consumes_on_err, consumes_endline.
  eapply endline_bind; [apply inline_int|intros a].
  eapply endline_bind; [apply inline_int|intros c].
  eapply endline_bind; [apply inline_int|intros d].
  eapply endline_bind; [apply inline_int|intros e].
  apply endline_verify. intros. apply consumes_ret.
Qed.

(** ** zipped blocks *)
Section ZipSound.
  Context {A : Type}.
  Variable rd : M A.
  Variable isdef : A -> bool.
  Variable k w : nat.
  Variables mat mf mt : Z.
  (** [elem o l x]: columns o.. of line l hold x *)
  Variable elem : nat -> text -> A -> Prop.
  Hypothesis Hrd : forall o l b s x s',
    inl o l b s -> rd s = Ok x s' -> elem o l x /\ inl (o + w) l b s' /\ line s' = line s.
  Hypothesis Hk : (0 < k)%nat.
  Hypothesis Hw : (w * k = 66)%nat.

  Lemma rd_n_spec n : forall o l b s xs s',
    inl o l b s -> rd_n rd n s = Ok xs s' ->
    length xs = n /\ inl (o + w * n) l b s' /\ line s' = line s
    /\ (forall i x, nth_error xs i = Some x -> elem (o + w * i) l x).
  Proof.
    induction n as [|n IH]; intros o l b s xs s' H E; cbn [rd_n] in E.
    - inversion E; subst. rewrite Nat.mul_0_r, Nat.add_0_r.
      repeat split; auto. intros [|i] x; discriminate.
    - apply bind_ok in E. destruct E as (x & s1 & E1 & E).
      apply bind_ok in E. destruct E as (ys & s2 & E2 & E). inversion E; subst.
      destruct (Hrd _ _ _ _ _ _ H E1) as (K1 & I1 & L1).
      destruct (IH _ _ _ _ _ _ I1 E2) as (N & I2 & L2 & K2).
      split; [simpl; lia|]. split; [|split; [congruence|]].
      + replace (o + w * S n)%nat with (o + w + w * n)%nat by lia. exact I2.
      + intros [|i] z Hz; cbn [nth_error] in Hz.
        * inversion Hz; subst. now rewrite Nat.mul_0_r, Nat.add_0_r.
        * replace (o + w * S i)%nat with (o + w + w * i)%nat by lia. now apply K2.
  Qed.

  Lemma rd_leftover_spec n : forall o l b s u s',
    inl o l b s -> rd_leftover rd isdef n s = Ok u s' ->
    inl (o + w * n) l b s' /\ line s' = line s
    /\ (forall i, (i < n)%nat -> exists x, elem (o + w * i) l x /\ isdef x = true).
  Proof.
    induction n as [|n IH]; intros o l b s u s' H E; cbn [rd_leftover] in E.
    - inversion E; subst. rewrite Nat.mul_0_r, Nat.add_0_r.
      repeat split; auto. intros i Hi. lia.
    - apply bind_ok in E. destruct E as (x & s1 & E1 & E).
      apply bind_ok in E. destruct E as (y & s2 & E2 & E).
      apply require_ok in E2. destruct E2 as [D ->].
      destruct (Hrd _ _ _ _ _ _ H E1) as (K1 & I1 & L1).
      destruct (IH _ _ _ _ _ _ I1 E) as (I2 & L2 & K2).
      split; [|split; [congruence|]].
      + replace (o + w * S n)%nat with (o + w + w * n)%nat by lia. exact I2.
      + intros [|i] Hi.
        * exists x. rewrite Nat.mul_0_r, Nat.add_0_r. auto.
        * destruct (K2 i) as (z & Hz & Dz); [lia|]. exists z.
          replace (o + w * S i)%nat with (o + w + w * i)%nat by lia. auto.
  Qed.

  Definition zspec (n : nat) (xs : list A) (ls : list text) : Prop :=
    length xs = n /\ Z.of_nat (length ls) = nlines k n
    /\ Forall (tail_is mat mf mt) ls
    /\ (forall i x, nth_error xs i = Some x ->
          exists l, nth_error ls (i / k) = Some l /\ elem (w * (i mod k)) l x)
    /\ (forall i, (n <= i < k * length ls)%nat ->
          exists l x, nth_error ls (i / k) = Some l /\ elem (w * (i mod k)) l x
                      /\ isdef x = true).

  Lemma zspec_cons xs l n ys ls :
    length xs = k -> tail_is mat mf mt l ->
    (forall i x, nth_error xs i = Some x -> elem (w * i) l x) ->
    zspec n ys ls -> zspec (k + n) (xs ++ ys) (l :: ls).
  Proof.
    intros Hx Hl He (H1 & H2 & H3 & H4 & H5).
    assert (Hsub : forall i, (k <= i)%nat ->
              (i / k = S ((i - k) / k))%nat /\ (i mod k = (i - k) mod k)%nat).
    { intros i Hi. replace i with (i - k + 1 * k)%nat at 1 3 by lia.
      rewrite Nat.div_add, Nat.mod_add by lia. lia. }
    unfold zspec. rewrite app_length. split; [lia|]. split.
    { cbn [length]. rewrite nlines_step by lia.
      replace (k + n - k)%nat with n by lia. lia. }
    split; [now constructor|]. split.
    - intros i x Hi. destruct (le_lt_dec k i) as [Hge|Hlt].
      + rewrite nth_error_app2 in Hi by lia. rewrite Hx in Hi.
        destruct (H4 _ _ Hi) as (l' & N & E). destruct (Hsub i Hge) as [-> ->].
        exists l'. auto.
      + rewrite nth_error_app1 in Hi by lia.
        rewrite Nat.div_small, Nat.mod_small by auto. exists l. auto.
    - intros i Hi. cbn [length] in Hi. destruct (Hsub i) as [-> ->]; [lia|].
      destruct (H5 (i - k)%nat) as (l' & x & N & E & D); [lia|]. exists l', x. auto.
  Qed.

  Lemma zline_spec s xs s' :
    rd_zline rd k mat mf mt s = Ok xs s' ->
    exists l, next_line (buf s) = (l, buf s') /\ line s' = line s + 1
      /\ length xs = k /\ tail_is mat mf mt l
      /\ (forall i x, nth_error xs i = Some x -> elem (w * i) l x).
  Proof.
    intros E. destruct (inl_any s) as (l & b & N & I). unfold rd_zline in E.
    apply bind_ok in E. destruct E as (ys & s1 & E1 & E).
    apply bind_ok in E. destruct E as (u & s2 & E2 & E). inversion E; subst.
    destruct (rd_n_spec _ _ _ _ _ _ _ I E1) as (Ln & I1 & L1 & K1).
    rewrite Hw in I1. destruct (verify_cols _ _ _ _ _ _ _ _ I1 E2) as (K & B & L).
    exists l. subst b. rewrite N. split; [reflexivity|]. split; [lia|].
    split; [exact Ln|]. split; [exact K|].
    intros i x Hi. apply (K1 i x Hi).
  Qed.

  Lemma zspec_nil : zspec 0 [] [].
  Proof.
    unfold zspec. simpl. rewrite nlines0 by auto. repeat split; auto.
    - intros [|i] x; discriminate.
    - intros i Hi. lia.
  Qed.

  Lemma zpartial_spec r s xs s' :
    (0 < r < k)%nat -> rd_zpartial rd isdef k mat mf mt r s = Ok xs s' ->
    exists l, next_line (buf s) = (l, buf s') /\ line s' = line s + 1 /\ zspec r xs [l].
  Proof.
    intros Hr E. destruct (inl_any s) as (l & b & N & I). unfold rd_zpartial in E.
    apply bind_ok in E. destruct E as (ys & s1 & E1 & E).
    apply bind_ok in E. destruct E as (u & s2 & E2 & E).
    apply bind_ok in E. destruct E as (v & s3 & E3 & E). inversion E; subst.
    destruct (rd_n_spec _ _ _ _ _ _ _ I E1) as (Ln & I1 & L1 & K1).
    destruct (rd_leftover_spec _ _ _ _ _ _ _ I1 E2) as (I2 & L2 & K2).
    replace (0 + w * r + w * (k - r))%nat with 66%nat in I2.
    2:{ rewrite <- Hw, Nat.add_0_l, <- Nat.mul_add_distr_l. f_equal. lia. }
    destruct (verify_cols _ _ _ _ _ _ _ _ I2 E3) as (K & B & L).
    exists l. subst b. rewrite N. split; [reflexivity|]. split; [lia|].
    unfold zspec. split; [exact Ln|]. split.
    { rewrite nlines_short by lia. reflexivity. }
    split; [now constructor|]. split.
    - intros i x Hi. assert (Hlt : (i < r)%nat).
      { rewrite <- Ln. apply nth_error_Some. congruence. }
      rewrite Nat.div_small, Nat.mod_small by lia. exists l. split; auto.
      apply (K1 i x Hi).
    - intros i Hi. cbn [length] in Hi. rewrite Nat.div_small, Nat.mod_small by lia.
      destruct (K2 (i - r)%nat) as (x & Ex & Dx); [lia|]. exists l, x.
      replace (0 + w * r + w * (i - r))%nat with (w * i)%nat in Ex.
      2:{ rewrite Nat.add_0_l, <- Nat.mul_add_distr_l. f_equal. lia. }
      auto.
  Qed.

  Lemma unzip_spec_aux : forall q n s xs s',
    (n / k = q)%nat -> unzip rd isdef k mat mf mt n s = Ok xs s' ->
    exists ls, splits (buf s) ls (buf s') /\ line s' = line s + Z.of_nat (length ls)
               /\ zspec n xs ls.
  Proof.
    induction q as [|q IH]; intros n s xs s' Hq E.
    - assert (Hlt : (n < k)%nat) by (apply Nat.div_small_iff in Hq; lia).
      unfold unzip in E. rewrite Hq in E. cbn [rd_zlines] in E.
      rewrite Nat.mod_small in E by auto. unfold bind at 1, ret at 1 in E.
      destruct (Nat.eqb_spec n 0) as [->|Hn].
      + inversion E; subst. exists []. simpl. split; auto. split; [lia|apply zspec_nil].
      + apply bind_ok in E. destruct E as (ys & s1 & E1 & E). inversion E; subst.
        destruct (zpartial_spec n _ _ _ ltac:(lia) E1) as (l & N & L & Z).
        exists [l]. simpl. split; [eauto|]. split; [lia|auto].
    - assert (Hge : (k <= n)%nat).
      { destruct (le_lt_dec k n); auto. rewrite Nat.div_small in Hq by auto. discriminate. }
      assert (Hdiv : (n / k = S ((n - k) / k))%nat).
      { replace n with (n - k + 1 * k)%nat at 1 by lia. rewrite Nat.div_add by lia. lia. }
      assert (Hmod : (n mod k = (n - k) mod k)%nat).
      { replace n with (n - k + 1 * k)%nat at 1 by lia. now rewrite Nat.mod_add by lia. }
      unfold unzip in E. rewrite Hdiv, Hmod in E. cbn [rd_zlines] in E.
      apply bind_ok in E. destruct E as (zs & s2 & E1 & E).
      apply bind_ok in E1. destruct E1 as (z1 & s1 & E1 & E1').
      apply bind_ok in E1'. destruct E1' as (z2 & s3 & E2 & E1'). inversion E1'; subst.
      destruct (zline_spec _ _ _ E1) as (l & N & L & Lx & T & K).
      assert (E3 : exists ys, unzip rd isdef k mat mf mt (n - k) s1 = Ok ys s' /\ xs = z1 ++ ys).
      { unfold unzip. unfold bind at 1. rewrite E2.
        destruct ((n - k) mod k =? 0)%nat.
        - inversion E; subst. exists z2. auto.
        - unfold bind in E |- *. destruct (rd_zpartial _ _ _ _ _ _ _ _) as [ys s4|e s4|];
            try discriminate.
          inversion E; subst. exists (z2 ++ ys). rewrite app_assoc. auto. }
      destruct E3 as (ys & E3 & ->).
      destruct (IH (n - k)%nat s1 ys s' ltac:(lia) E3) as (ls & S & L' & Z).
      exists (l :: ls). cbn [splits length]. split; [eauto|]. split; [lia|].
      replace n with (k + (n - k))%nat by lia. now apply zspec_cons.
  Qed.

  Lemma unzip_spec n s xs s' :
    unzip rd isdef k mat mf mt n s = Ok xs s' ->
    exists ls, splits (buf s) ls (buf s') /\ line s' = line s + Z.of_nat (length ls)
               /\ zspec n xs ls.
  Proof. now apply unzip_spec_aux with (q := (n / k)%nat). Qed.

End ZipSound.
Lemma inline_n {A} (rd : M A) w n : inline w rd -> inline (w * n) (rd_n rd n).
Proof.
  intros H. induction n as [|n IH]; [rewrite Nat.mul_0_r; apply inline_ret|]. eapply inline_eq.
  - cbn [rd_n]. eapply inline_bind; [exact H|intros]. eapply inline_bind; [exact IH|intros; apply inline_ret].
  - lia.
Qed.
Lemma inline_leftover {A} (rd : M A) isdef w n : inline w rd -> inline (w * n) (rd_leftover rd isdef n).
Proof.
  intros H. induction n as [|n IH]; [rewrite Nat.mul_0_r; apply inline_ret|]. eapply inline_eq.
  - cbn [rd_leftover]. eapply inline_bind; [exact H|intros]. eapply inline_bind; [apply inline_require|intros; exact IH].
  - lia.
Qed.
Lemma consumes_unzip {A} (rd : M A) isdef w k mat mf mt n : inline w rd -> (w * k = 66)%nat -> consumes (tail_is mat mf mt) (unzip rd isdef k mat mf mt n).
Proof.
  intros H W. assert (K0 : (k <> 0)%nat) by lia. unfold unzip. apply consumes_bind; [|intros xs].
  - generalize (n / k)%nat. intros q. induction q as [|q IH]; cbn [rd_zlines]; [apply consumes_ret|].
    apply consumes_bind; [|intros]. 2:{ apply consumes_bind; [exact IH|intros; apply consumes_ret]. }
    unfold rd_zline. apply consumes_endline. eapply endline_bind; [exact (inline_n rd w k H)|intros]. rewrite W. apply endline_verify. intros. apply consumes_ret.
  - destruct (n mod k =? 0)%nat; [apply consumes_ret|]. apply consumes_bind; [|intros; apply consumes_ret].
    pose proof (Nat.mod_upper_bound n k K0) as B. unfold rd_zpartial. apply consumes_endline. eapply endline_bind; [exact (inline_n rd w _ H)|intros].
    eapply endline_bind; [exact (inline_leftover rd isdef w _ H)|intros]. replace (0 + w * (n mod k) + w * (k - n mod k))%nat with 66%nat by nia.
    apply endline_verify. intros. apply consumes_ret.
Qed.
Lemma inline_pair_int : inline 22 rd_pair_int.
Proof. unfold rd_pair_int. eapply inline_eq; [eapply inline_bind; [apply inline_int|intros; eapply inline_bind; [apply inline_int|intros; apply inline_ret]]|reflexivity]. Qed.
Lemma inline_pair_real : inline 22 rd_pair_real.
Proof. unfold rd_pair_real. eapply inline_eq; [eapply inline_bind; [apply inline_real|intros; eapply inline_bind; [apply inline_real|intros; apply inline_ret]]|reflexivity]. Qed.
Lemma consumes_lift {A} P (o : out A) : consumes P (lift o).
Proof. destruct o; [apply consumes_ret|apply consumes_throw|intros s a s' E; discriminate]. Qed.

Definition elem_real (o : nat) (l : text) (x : real) : Prop := read_real (col o 11 l) = Some x.
Definition elem_ints (o : nat) (l : text) (p : Z * Z) : Prop :=
  read_int (col o 11 l) = Some (fst p) /\ read_int (col (o + 11) 11 l) = Some (snd p).
Definition elem_reals (o : nat) (l : text) (p : real * real) : Prop :=
  read_real (col o 11 l) = Some (fst p) /\ read_real (col (o + 11) 11 l) = Some (snd p).

Lemma rd_pair_int_spec o l b s x s' :
  inl o l b s -> rd_pair_int s = Ok x s' ->
  elem_ints o l x /\ inl (o + 22) l b s' /\ line s' = line s.
Proof.
  intros H E. unfold rd_pair_int in E.
  apply bind_ok in E. destruct E as (x1 & s1 & E1 & E).
  apply bind_ok in E. destruct E as (x2 & s2 & E2 & E). inversion E; subst.
  destruct (rd_int_inl _ _ _ _ _ _ _ H E1) as (K1 & I1 & L1).
  destruct (rd_int_inl _ _ _ _ _ _ _ I1 E2) as (K2 & I2 & L2).
  split; [split; assumption|]. split; [|congruence].
  replace (o + 22)%nat with (o + 11 + 11)%nat by lia. exact I2.
Qed.
Lemma rd_pair_real_spec o l b s x s' :
  inl o l b s -> rd_pair_real s = Ok x s' ->
  elem_reals o l x /\ inl (o + 22) l b s' /\ line s' = line s.
Proof.
  intros H E. unfold rd_pair_real in E.
  apply bind_ok in E. destruct E as (x1 & s1 & E1 & E).
  apply bind_ok in E. destruct E as (x2 & s2 & E2 & E). inversion E; subst.
  destruct (rd_real_inl _ _ _ _ _ _ H E1) as (K1 & I1 & L1).
  destruct (rd_real_inl _ _ _ _ _ _ I1 E2) as (K2 & I2 & L2).
  split; [split; assumption|]. split; [|congruence].
  replace (o + 22)%nat with (o + 11 + 11)%nat by lia. exact I2.
Qed.

Definition zreal := zspec ris0 6 11.
Lemma unzip_real_spec mat mf mt n s xs s' :
  unzip rd_real ris0 6 mat mf mt n s = Ok xs s' ->
  exists ls, splits (buf s) ls (buf s') /\ line s' = line s + Z.of_nat (length ls)
             /\ zspec ris0 6 11 mat mf mt elem_real n xs ls.
Proof.
  apply unzip_spec; [|lia|reflexivity]. intros o l b s0 x s1 H E.
  exact (rd_real_inl _ _ _ _ _ _ H E).
Qed.
Lemma unzip_ints_spec mat mf mt n s xs s' :
  unzip rd_pair_int pair_int_is0 3 mat mf mt n s = Ok xs s' ->
  exists ls, splits (buf s) ls (buf s') /\ line s' = line s + Z.of_nat (length ls)
             /\ zspec pair_int_is0 3 22 mat mf mt elem_ints n xs ls.
Proof. apply unzip_spec; [exact rd_pair_int_spec|lia|reflexivity]. Qed.
Lemma unzip_reals_spec mat mf mt n s xs s' :
  unzip rd_pair_real pair_real_is0 3 mat mf mt n s = Ok xs s' ->
  exists ls, splits (buf s) ls (buf s') /\ line s' = line s + Z.of_nat (length ls)
             /\ zspec pair_real_is0 3 22 mat mf mt elem_reals n xs ls.
Proof. apply unzip_spec; [exact rd_pair_real_spec|lia|reflexivity]. Qed.

(** ** what a successful LIST / TAB2 / TAB1 read means *)

(** the text begins with a LIST record l on lines h :: ls *)
Definition list_lines (mat mf mt : Z) (l : listr) (h : text) (ls : list text) : Prop :=
  base_cols h (mkcont (lC1 l) (lC2 l) (lL1 l) (lL2 l) (npl l) (lN2 l))
  /\ tail_is mat mf mt h
  /\ zspec ris0 6 11 mat mf mt elem_real (length (lB l)) (lB l) ls.

Lemma rd_list_spec mat mf mt s l s' :
  rd_list mat mf mt s = Ok l s' ->
  exists h ls, splits (buf s) (h :: ls) (buf s')
    /\ line s' = line s + nc_list l /\ list_lines mat mf mt l h ls.
Proof.
  intros E. unfold rd_list in E. apply on_err_ok in E.
  apply bind_ok in E. destruct E as (c & s1 & E1 & E). apply on_err_ok in E1.
  apply bind_ok in E. destruct E as (b & s2 & E2 & E). inversion E; subst. clear E.
  apply bind_ok in E1. destruct E1 as (c' & s3 & E3 & E1).
  apply bind_ok in E1. destruct E1 as (u & s4 & E4 & E1).
  apply bind_ok in E1. destruct E1 as (u' & s5 & E5 & E1).
  apply require_ok in E5. destruct E5 as [Hn ->]. inversion E1; subst. clear E1.
  destruct (inl_any s) as (h & bt & N & I).
  destruct (rd_base_cols _ _ _ _ _ I E3) as (B & I3 & L3).
  destruct (verify_cols _ _ _ _ _ _ _ _ I3 E4) as (T & Bf & L4).
  destruct (unzip_real_spec _ _ _ _ _ _ _ E2) as (ls & S & L & Z).
  exists h, ls. assert (Z' := Z). destruct Z' as (Ln & Lc & _).
  split. { cbn [splits]. exists bt. split; [exact N|]. now rewrite <- Bf. }
  split.
  - unfold nc_list, npl. cbn [lB]. unfold nlines in Lc. lia.
  - unfold list_lines. cbn [lC1 lC2 lL1 lL2 lN2 lB]. unfold npl. cbn [lB].
    split; [|split; [exact T|now rewrite Ln]].
    unfold base_cols in *. cbn [c1 c2 l1 l2 n1 n2].
    replace (Z.of_nat (length b)) with (n1 c) by lia. exact B.
Qed.

Lemma consumes_zlines mat mf mt s h ls r :
  splits s (h :: ls) r -> tail_is mat mf mt h -> Forall (tail_is mat mf mt) ls ->
  exists l, splits s l r /\ length l = S (length ls) /\ Forall (tail_is mat mf mt) l.
Proof. intros H1 H2 H3. exists (h :: ls). auto. Qed.

Lemma consumes_list mat mf mt : consumes (tail_is mat mf mt) (rd_list mat mf mt).
Proof.
  unfold rd_list. apply consumes_on_err, consumes_bind; [|intros c].
  - apply consumes_on_err, consumes_endline. eapply endline_bind; [apply inline_base|intros c]. apply endline_verify.
    intros. apply consumes_bind; [apply consumes_require|intros; apply consumes_ret].
  - apply consumes_bind; [|intros; apply consumes_ret]. apply (consumes_unzip _ _ 11); [apply inline_real|reflexivity].
Qed.

Definition tab2_lines (mat mf mt : Z) (t : tab2) (h : text) (ls : list text) : Prop :=
  base_cols h (mkcont (tC1 t) (tC2 t) (tL1 t) (tL2 t) (tnr t) (tn2 t))
  /\ tail_is mat mf mt h
  /\ zspec pair_int_is0 3 22 mat mf mt elem_ints
       (length (tbnd t)) (combine (tbnd t) (tint t)) ls.

(** the invariants of an interpolation table *)
Definition tab2_inv (t : tab2) : Prop :=
  tbnd t <> [] /\ length (tint t) = length (tbnd t)
  /\ is_sorted Z.ltb (tbnd t) = true /\ 0 <= tn2 t.

Lemma combine_map_fst_snd {A B} (l : list (A * B)) : combine (map fst l) (map snd l) = l.
Proof. induction l as [|[a b] l IH]; simpl; congruence. Qed.

Lemma rd_ibase_spec mat mf mt s t s' :
  rd_ibase mat mf mt s = Ok t s' ->
  tab2_inv t /\
  exists h ls, splits (buf s) (h :: ls) (buf s')
    /\ line s' = line s + nc_tab2 t /\ tab2_lines mat mf mt t h ls.
Proof.
  intros E. unfold rd_ibase in E.
  apply bind_ok in E. destruct E as (c & s1 & E1 & E).
  apply bind_ok in E. destruct E as (u & s2 & E2 & E).
  apply bind_ok in E. destruct E as (u3 & s3 & E3 & E).
  apply require_ok in E3. destruct E3 as [Hn1 ->].
  apply bind_ok in E. destruct E as (u4 & s4 & E4 & E).
  destruct (Z.ltb_spec (n2 c) 0) as [|Hn2]; [discriminate|]. inversion E4; subst.
  apply bind_ok in E. destruct E as (ps & s5 & E5 & E). apply on_err_ok in E5.
  apply bind_ok in E5. destruct E5 as (ps' & s6 & E6 & E5).
  apply bind_ok in E5. destruct E5 as (u7 & s7 & E7 & E5).
  apply require_ok in E7. destruct E7 as [Hs ->]. inversion E5; subst. clear E5.
  apply bind_ok in E. destruct E as (t' & s8 & E8 & E).
  apply bind_ok in E. destruct E as (u9 & s9 & E9 & E).
  destruct (inl_any s) as (h & bt & N & I).
  destruct (rd_base_cols _ _ _ _ _ I E1) as (B & I3 & L3).
  destruct (verify_cols _ _ _ _ _ _ _ _ I3 E2) as (T & Bf & L4).
  destruct (unzip_ints_spec _ _ _ _ _ _ _ E6) as (ls & S & L & Z).
  assert (Z' := Z). destruct Z' as (Ln & Lc & _).
  assert (Hlen : length (map fst ps) = length ps) by apply map_length.
  assert (Hlen' : length (map snd ps) = length ps) by apply map_length.
  rewrite make_tab2_ok in E8; [|destruct ps; simpl in *; [lia|congruence]|congruence|exact Hs].
  inversion E8; subst. clear E8.
  destruct (Z.eqb_spec (n2 c) (tn2 {| tC1 := c1 c; tC2 := c2 c; tL1 := l1 c; tL2 := l2 c;
                 tbnd := map fst ps; tint := map snd ps |})) as [Heq|]; [|discriminate].
  inversion E9; subst. inversion E; subst. clear E E9.
  split.
  - unfold tab2_inv. cbn [tbnd tint].
    split; [destruct ps; simpl in *; [lia|congruence]|].
    split; [congruence|]. split; [exact Hs|]. lia.
  - exists h, ls.
    split. { cbn [splits]. eexists. split; [exact N|]. exact S. }
    split.
    + unfold nc_tab2, tnr. cbn [tbnd]. rewrite Hlen. unfold nlines in Lc. lia.
    + unfold tab2_lines. cbn [tC1 tC2 tL1 tL2 tbnd tint].
      split; [|split; [exact T|]].
      * unfold base_cols in *. cbn [c1 c2 l1 l2 n1 n2].
        rewrite <- Heq. unfold tnr. cbn [tbnd]. rewrite Hlen.
        replace (Z.of_nat (length ps)) with (n1 c) by lia. exact B.
      * rewrite combine_map_fst_snd, Hlen, Ln. exact Z.
Qed.

Lemma consumes_ibase mat mf mt : consumes (tail_is mat mf mt) (rd_ibase mat mf mt).
Proof.
  unfold rd_ibase. apply consumes_endline. eapply endline_bind; [apply inline_base|intros c]. apply endline_verify. intros.
  apply consumes_bind; [apply consumes_require|intros]. apply consumes_bind; [destruct (n2 c <? 0); [apply consumes_throw|apply consumes_ret]|intros].
  apply consumes_bind; [|intros ps].
  - apply consumes_on_err, consumes_bind; [apply (consumes_unzip _ _ 22); [apply inline_pair_int|reflexivity]|intros].
    apply consumes_bind; [apply consumes_require|intros; apply consumes_ret].
  - apply consumes_bind; [apply consumes_lift|intros t]. apply consumes_bind; [|intros; apply consumes_ret].
    destruct (n2 c =? tn2 t); [apply consumes_ret|apply consumes_throw].
Qed.
Lemma consumes_tab2 mat mf mt : consumes (tail_is mat mf mt) (rd_tab2 mat mf mt).
Proof. apply consumes_on_err, consumes_ibase. Qed.

Definition tab1_inv (t : tab1) : Prop :=
  tab2_inv (tbase t) /\ length (ty t) = length (tx t)
  /\ is_sorted rlt (tx t) = true /\ tn2 (tbase t) = tnp t.
Definition tab1_lines (mat mf mt : Z) (t : tab1) (h : text) (ls ls' : list text) : Prop :=
  tab2_lines mat mf mt (tbase t) h ls
  /\ zspec pair_real_is0 3 22 mat mf mt elem_reals
       (length (tx t)) (combine (tx t) (ty t)) ls'.

Lemma rd_tab1_spec mat mf mt s t s' :
  rd_tab1 mat mf mt s = Ok t s' ->
  tab1_inv t /\
  exists h ls ls', splits (buf s) (h :: ls ++ ls') (buf s')
    /\ line s' = line s + nc_tab1 t /\ tab1_lines mat mf mt t h ls ls'.
Proof.
  intros E. unfold rd_tab1 in E. apply on_err_ok in E.
  apply bind_ok in E. destruct E as (b & s1 & E1 & E).
  apply bind_ok in E. destruct E as (ps & s2 & E2 & E). apply on_err_ok in E2.
  apply bind_ok in E2. destruct E2 as (ps' & s3 & E3 & E2).
  apply bind_ok in E2. destruct E2 as (u & s4 & E4 & E2).
  apply require_ok in E4. destruct E4 as [Hs ->]. inversion E2; subst.
  inversion E; subst. clear E E2.
  destruct (rd_ibase_spec _ _ _ _ _ _ E1) as (Hi & h & ls & S & L & Hl).
  destruct (unzip_reals_spec _ _ _ _ _ _ _ E3) as (ls' & S' & L' & Z).
  assert (Z' := Z). destruct Z' as (Ln & Lc & _).
  assert (Hlen : length (map fst ps) = length ps) by apply map_length.
  assert (Hlen' : length (map snd ps) = length ps) by apply map_length.
  assert (Hp : 0 <= tn2 b) by apply Hi.
  split.
  - unfold tab1_inv, tnp. cbn [tbase tx ty].
    split; [exact Hi|]. split; [congruence|]. split; [exact Hs|]. lia.
  - exists h, ls, ls'. split.
    { apply (splits_app _ (h :: ls) ls' _ _ S S'). }
    split.
    + unfold nc_tab1, tnp. cbn [tbase tx]. unfold nlines in Lc. lia.
    + split; [exact Hl|]. cbn [tx ty]. rewrite combine_map_fst_snd, Hlen, Ln. exact Z.
Qed.

Lemma consumes_tab1 mat mf mt : consumes (tail_is mat mf mt) (rd_tab1 mat mf mt).
Proof.
  unfold rd_tab1. apply consumes_on_err, consumes_bind; [apply consumes_ibase|intros t].
  apply consumes_bind; [|intros; apply consumes_ret]. apply consumes_on_err, consumes_bind; [apply (consumes_unzip _ _ 22); [apply inline_pair_real|reflexivity]|intros].
  apply consumes_bind; [apply consumes_require|intros; apply consumes_ret].
Qed.

Lemma consumes_rd_n {A} P (m : M A) n : consumes P m -> consumes P (rd_n m n).
Proof.
  intros H. induction n as [|n IH]; cbn [rd_n]; [apply consumes_ret|].
  apply consumes_bind; [exact H|intros x]. apply consumes_bind; [exact IH|intros].
  apply consumes_ret.
Qed.
Lemma consumes_sequence {C} P (rdc : Z -> Z -> Z -> M C) mat mf mt size :
  consumes P (rdc mat mf mt) -> consumes P (rd_sequence rdc mat mf mt size).
Proof.
  intros H. unfold rd_sequence. apply consumes_bind; [apply consumes_require|].
  intros. now apply consumes_rd_n.
Qed.
Lemma consumes_iseq {C} v (rdc : Z -> Z -> Z -> M C) mat mf mt :
  consumes (tail_is mat mf mt) (rdc mat mf mt) ->
  consumes (tail_is mat mf mt) (rd_iseq v rdc mat mf mt).
Proof.
  intros H. unfold rd_iseq. apply consumes_bind; [apply consumes_tab2|intros t].
  apply consumes_bind; [now apply consumes_sequence|intros]. apply consumes_lift.
Qed.

(** ** exceptions *)
Definition raises {A} (E : exn -> bool) (m : M A) : Prop :=
  forall s, match m s with Ok _ _ => True | Err e _ => E e = true | UB => False end.

Lemma raises_only_std {A} (m : M A) : raises is_std m <-> only_std m.
Proof. reflexivity. Qed.
Lemma raises_weaken {A} (E E' : exn -> bool) (m : M A) :
  (forall e, E e = true -> E' e = true) -> raises E m -> raises E' m.
Proof. intros H K s. specialize (K s). destruct (m s); auto. Qed.
Lemma raises_ret {A} E (a : A) : raises E (ret a). Proof. intros s. exact I. Qed.
Lemma raises_throw {A} (E : exn -> bool) e : E e = true -> raises E (@throw A e).
Proof. intros H s. exact H. Qed.
Lemma raises_bind {A B} E (m : M A) (f : A -> M B) :
  raises E m -> (forall a, raises E (f a)) -> raises E (bind m f).
Proof.
  intros H1 H2 s. unfold bind. specialize (H1 s). destruct (m s) as [a s'|e s'|]; auto.
  apply H2.
Qed.
Lemma raises_on_err {A} (E E' : exn -> bool) (m : M A) h :
  raises E m -> (forall e s, E e = true -> E' (fst (h e s)) = true) -> raises E' (on_err m h).
Proof.
  intros H K s. unfold on_err. specialize (H s). destruct (m s) as [a s'|e s'|]; auto.
  specialize (K e s' H). destruct (h e s'). exact K.
Qed.

(** std::exception or int *)
Definition std_or_int (e : exn) : bool :=
  match e with EStd | EOor | EInt _ => true | _ => false end.
Definition any_exn (e : exn) : bool := true.

Lemma raises_std {A} (E : exn -> bool) (m : M A) :
  only_std m -> E EStd = true -> E EOor = true -> raises E m.
Proof.
  intros H K1 K2 s. specialize (H s). destruct (m s) as [a s'|e s'|]; auto.
  destruct e; try discriminate; auto.
Qed.

Lemma only_std_base : only_std rd_base.
Proof.
  unfold rd_base. repeat (apply only_std_bind; [first [apply only_std_real|apply only_std_int]|intros]).
  apply only_std_ret.
Qed.
Lemma only_std_tail : only_std rd_tail.
Proof.
  unfold rd_tail. repeat (apply only_std_bind; [first [apply only_std_int|apply only_std_eol]|intros]).
  first [apply only_std_ret | apply only_std_bind; [intros s; exact I|intros]; apply only_std_ret].
Qed.
Lemma raises_verify mat mf mt : raises std_or_int (verify_tail mat mf mt).
Proof.
  unfold verify_tail. apply raises_bind; [apply raises_std; auto using only_std_tail|].
  intros [[m f] t].
  apply raises_bind; [destruct (t =? mt); [apply raises_ret|now apply raises_throw]|intros].
  apply raises_bind; [destruct (f =? mf); [apply raises_ret|now apply raises_throw]|intros].
  destruct (m =? mat); [apply raises_ret|now apply raises_throw].
Qed.

Lemma h_dec_std e s : std_or_int e = true -> is_std (fst (h_dec e s)) = true.
Proof. destruct e; simpl; auto; discriminate. Qed.
Lemma h_nodec_std e s : std_or_int e = true -> is_std (fst (h_nodec e s)) = true.
Proof. destruct e; simpl; auto; discriminate. Qed.

Lemma only_std_cont mat mf mt : only_std (rd_cont mat mf mt).
Proof.
  apply raises_only_std. unfold rd_cont. eapply raises_on_err; [|apply h_dec_std].
  apply raises_bind; [apply raises_std; auto using only_std_base|intros].
  apply raises_bind; [apply raises_verify|intros]. apply raises_ret.
Qed.
Lemma only_std_text mat mf mt : only_std (rd_text mat mf mt).
Proof.
  apply raises_only_std. unfold rd_text. eapply raises_on_err; [|apply h_dec_std].
  apply raises_bind; [apply raises_std; auto using only_std_chars|intros].
  apply raises_bind; [apply raises_verify|intros]. apply raises_ret.
Qed.
Lemma only_std_dir mat mf mt : only_std (rd_dir mat mf mt).
Proof.
  apply raises_only_std. unfold rd_dir. eapply raises_on_err; [|apply h_dec_std].
  do 4 (apply raises_bind; [apply raises_std; auto using only_std_int|intros]).
  apply raises_bind; [apply raises_verify|intros]. apply raises_ret.
Qed.
Lemma only_std_tpid : only_std rd_tpid.
Proof.
  apply raises_only_std. unfold rd_tpid. eapply raises_on_err; [|apply h_dec_std].
  apply raises_bind; [apply raises_std; auto using only_std_chars|intros].
  apply raises_bind; [apply raises_std; auto using only_std_tail|intros [[m f] t]].
  apply raises_bind; [destruct (t =? 0); [apply raises_ret|now apply raises_throw]|intros].
  apply raises_bind; [destruct (f =? 0); [apply raises_ret|now apply raises_throw]|intros].
  apply raises_ret.
Qed.
Lemma only_std_sdiv : only_std rd_sdiv.
Proof.
  apply raises_only_std. unfold rd_sdiv. eapply raises_on_err; [|apply h_nodec_std].
  apply raises_bind; [apply raises_std; auto using only_std_base|intros].
  apply raises_bind; [apply raises_std; auto using only_std_tail|intros [[m f] t]].
  apply raises_bind; [apply raises_std; auto using only_std_require|intros].
  apply raises_bind; [apply raises_std; auto using only_std_require|intros].
  apply raises_bind; [apply raises_std; auto using only_std_require|intros].
  apply raises_ret.
Qed.
Lemma only_std_skip : only_std rd_skip.
Proof. apply only_std_bind; [apply only_std_chars|intros; apply only_std_tail]. Qed.

Section ZipRaises.
  Context {A : Type}.
  Variable rd : M A.
  Variable isdef : A -> bool.
  Hypothesis Hrd : only_std rd.
  Lemma only_std_rd_n n : only_std (rd_n rd n).
  Proof.
    induction n as [|n IH]; cbn [rd_n]; [apply only_std_ret|].
    apply only_std_bind; [exact Hrd|intros]. apply only_std_bind; [exact IH|intros].
    apply only_std_ret.
  Qed.
  Lemma only_std_leftover n : only_std (rd_leftover rd isdef n).
  Proof.
    induction n as [|n IH]; cbn [rd_leftover]; [apply only_std_ret|].
    apply only_std_bind; [exact Hrd|intros].
    apply only_std_bind; [apply only_std_require|intros]. exact IH.
  Qed.
  Lemma raises_zlines k mat mf mt q : raises std_or_int (rd_zlines rd k mat mf mt q).
  Proof.
    induction q as [|q IH]; cbn [rd_zlines]; [apply raises_ret|].
    apply raises_bind.
    - unfold rd_zline. apply raises_bind; [apply raises_std; auto using only_std_rd_n|intros].
      apply raises_bind; [apply raises_verify|intros]. apply raises_ret.
    - intros. apply raises_bind; [exact IH|intros]. apply raises_ret.
  Qed.
  Lemma raises_unzip k mat mf mt n : raises std_or_int (unzip rd isdef k mat mf mt n).
  Proof.
    unfold unzip. apply raises_bind; [apply raises_zlines|intros].
    destruct (n mod k =? 0)%nat; [apply raises_ret|].
    apply raises_bind; [|intros; apply raises_ret].
    unfold rd_zpartial.
    apply raises_bind; [apply raises_std; auto using only_std_rd_n|intros].
    apply raises_bind; [apply raises_std; auto using only_std_leftover|intros].
    apply raises_bind; [apply raises_verify|intros]. apply raises_ret.
  Qed.
End ZipRaises.

Lemma h_std_keep e s : std_or_int e = true -> std_or_int (fst (h_std e s)) = true.
Proof. destruct e; simpl; auto. Qed.

Lemma only_std_list mat mf mt : only_std (rd_list mat mf mt).
Proof.
  apply raises_only_std. unfold rd_list. eapply raises_on_err; [|apply h_nodec_std].
  apply raises_bind.
  - eapply raises_on_err; [|apply h_std_keep].
    apply raises_bind; [apply raises_std; auto using only_std_base|intros].
    apply raises_bind; [apply raises_verify|intros].
    apply raises_bind; [apply raises_std; auto using only_std_require|intros].
    apply raises_ret.
  - intros. apply raises_bind; [apply raises_unzip, only_std_real|intros]. apply raises_ret.
Qed.

Lemma only_std_pair_int : only_std rd_pair_int.
Proof.
  unfold rd_pair_int. do 2 (apply only_std_bind; [apply only_std_int|intros]).
  apply only_std_ret.
Qed.
Lemma only_std_pair_real : only_std rd_pair_real.
Proof.
  unfold rd_pair_real. do 2 (apply only_std_bind; [apply only_std_real|intros]).
  apply only_std_ret.
Qed.

Lemma raises_bind_dep {A B} E (m : M A) (f : A -> M B) (P : A -> Prop) :
  raises E m -> (forall s a s', m s = Ok a s' -> P a) ->
  (forall a, P a -> raises E (f a)) -> raises E (bind m f).
Proof.
  intros H1 HP H2 s. unfold bind. specialize (H1 s).
  destruct (m s) as [a s'|e s'|] eqn:Em; auto. apply H2. eauto.
Qed.

Lemma raises_ibase mat mf mt : raises any_exn (rd_ibase mat mf mt).
Proof.
  unfold rd_ibase.
  apply raises_bind; [apply raises_std; auto using only_std_base|intros c].
  apply raises_bind; [eapply raises_weaken; [|apply raises_verify]; auto|intros].
  apply raises_bind_dep with (P := fun _ => (n1 c <? 1) = false);
    [apply raises_std; auto using only_std_require| |].
  { intros s a1 s' E. apply require_ok in E. destruct E as [E _].
    now destruct (n1 c <? 1). }
  intros _ Hn.
  apply raises_bind; [destruct (n2 c <? 0); [now apply raises_throw|apply raises_ret]|intros].
  apply raises_bind_dep with (P := fun ps => ps <> [] /\ is_sorted Z.ltb (map fst ps) = true).
  - eapply raises_on_err with (E := std_or_int); [|auto].
    apply raises_bind; [apply raises_unzip, only_std_pair_int|intros].
    apply raises_bind; [apply raises_std; auto using only_std_require|intros]. apply raises_ret.
  - intros s ps s' E. apply on_err_ok in E.
    apply bind_ok in E. destruct E as (ps' & s3 & E3 & E2).
    apply bind_ok in E2. destruct E2 as (u & s4 & E4 & E2).
    apply require_ok in E4. destruct E4 as [Hs ->]. inversion E2; subst.
    destruct (unzip_ints_spec _ _ _ _ _ _ _ E3) as (ls & _ & _ & (Ln & _)).
    split; [|exact Hs]. intros ->. simpl in Ln. lia.
  - intros ps [Hp Hs].
    rewrite make_tab2_ok; [|destruct ps; simpl; congruence|now rewrite !map_length|exact Hs].
    cbn [lift]. apply raises_bind; [apply raises_ret|intros t].
    apply raises_bind; [destruct (n2 c =? tn2 t); [apply raises_ret|now apply raises_throw]|intros].
    apply raises_ret.
Qed.

Lemma only_std_tab2 mat mf mt : only_std (rd_tab2 mat mf mt).
Proof.
  apply raises_only_std. eapply raises_on_err; [apply raises_ibase|]. reflexivity.
Qed.
Lemma only_std_tab1 mat mf mt : only_std (rd_tab1 mat mf mt).
Proof.
  apply raises_only_std. unfold rd_tab1. eapply raises_on_err with (E := any_exn); [|reflexivity].
  apply raises_bind; [apply raises_ibase|intros b].
  apply raises_bind; [|intros; apply raises_ret].
  eapply raises_on_err with (E := std_or_int); [|auto].
  apply raises_bind; [apply raises_unzip, only_std_pair_real|intros].
  apply raises_bind; [apply raises_std; auto using only_std_require|intros]. apply raises_ret.
Qed.
Lemma only_std_sequence {C} (rdc : Z -> Z -> Z -> M C) mat mf mt size :
  only_std (rdc mat mf mt) -> only_std (rd_sequence rdc mat mf mt size).
Proof.
  intros H. unfold rd_sequence. apply only_std_bind; [apply only_std_require|intros].
  now apply only_std_rd_n.
Qed.
Lemma only_std_iseq {C} v (rdc : Z -> Z -> Z -> M C) mat mf mt :
  only_std (rdc mat mf mt) -> only_std (rd_iseq v rdc mat mf mt).
Proof.
  intros H. unfold rd_iseq. apply only_std_bind; [apply only_std_tab2|intros t].
  apply only_std_bind; [now apply only_std_sequence|intros l].
  unfold make_iseq. destruct (_ =? 0); [now apply only_std_throw|].
  destruct (negb _); [now apply only_std_throw|].
  destruct (negb _); [now apply only_std_throw|]. apply only_std_ret.
Qed.
