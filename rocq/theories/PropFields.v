(** PropFields.v -- C16, C17: which texts the 11-column fields accept, and their value. *)
From Coq Require Import QArith Qabs Lqa ZifyBool ZifyNat String.
From Coq Require Import List. Import ListNotations.
From Verif Require Import Base Disco DiscoProofs Records RecordProofs RecordSound Layout RealRound RealProofs Spec LineFacts PropRecords PropRecords2 PropRecords3.
Open Scope Z_scope.

(** ** what a field may hold, written as a grammar *)
Definition digit (c : ascii) (k : Z) : Prop := 0 <= k <= 9 /\ c = ascii_of_nat (48 + Z.to_nat k).
(** a string of decimal digits and its value *)
Inductive decimal : text -> Z -> Prop :=
| dec_nil : decimal [] 0
| dec_snoc ds n c k : decimal ds n -> digit c k -> decimal (ds ++ [c]) (10 * n + k).
(** an optional sign; true for minus *)
Inductive sign : text -> bool -> Prop :=
| sg_none : sign [] false
| sg_plus : sign ["+"%char] false
| sg_minus : sign ["-"%char] true.
Definition signed (neg : bool) (n : Z) : Z := if neg then - n else n.
(** an integer field: blank, or one integer surrounded by blanks *)
Inductive integer_field : text -> Z -> Prop :=
| if_blank n : integer_field (blanks n) 0
| if_number a sg neg ds n b : sign sg neg -> decimal ds n -> ds <> [] ->
    integer_field (blanks a ++ sg ++ ds ++ blanks b) (signed neg n).
(** the exponent of a real: nothing, or a letter e, E, d, D and/or a sign, then digits *)
Inductive exponent : text -> Z -> Prop :=
| ex_none : exponent [] 0
| ex_sign sg neg ds n : sign sg neg -> sg <> [] -> decimal ds n -> ds <> [] -> exponent (sg ++ ds) (signed neg n)
| ex_letter c sg neg ds n : In c ["e"; "E"; "d"; "D"]%char -> sign sg neg -> decimal ds n -> ds <> [] ->
    exponent (c :: sg ++ ds) (signed neg n).
(** a real field denoting (-1)^neg * n * 10^k: digits, optionally a point among them,
    optionally an exponent, surrounded by blanks *)
Inductive real_field : text -> bool -> Z -> Z -> Prop :=
| rf_whole a sg neg ip n ex k b : sign sg neg -> decimal ip n -> ip <> [] -> exponent ex k ->
    real_field (blanks a ++ sg ++ ip ++ ex ++ blanks b) neg n k
| rf_point a sg neg ip fp n ex k b : sign sg neg -> decimal (ip ++ fp) n -> ip ++ fp <> [] -> exponent ex k ->
    real_field (blanks a ++ sg ++ ip ++ "."%char :: fp ++ ex ++ blanks b) neg n (k - Z.of_nat (length fp)).

(** ** proofs *)
Lemma digit_is c k : digit c k -> is_digit c = true /\ dval c = k.
Proof.
  intros [H ->]. unfold is_digit, dval, digit_val.
  assert (E : nat_of_ascii (ascii_of_nat (48 + Z.to_nat k)) = (48 + Z.to_nat k)%nat) by (apply nat_ascii_embedding; lia).
  rewrite E. destruct (_ && _)%bool eqn:K; [split; [reflexivity|lia]|lia].
Qed.
Lemma is_digit_digit c : is_digit c = true -> digit c (dval c).
Proof.
  unfold is_digit, dval, digit_val, digit. destruct (_ && _)%bool eqn:K; [|discriminate]. intros _.
  split; [lia|]. replace (48 + Z.to_nat (Z.of_nat (nat_of_ascii c) - 48))%nat with (nat_of_ascii c) by lia.
  now rewrite ascii_nat_embedding.
Qed.
Lemma decimal_iff ds n : decimal ds n <-> Forall (fun c => is_digit c = true) ds /\ value ds = n.
Proof.
  split.
  - induction 1 as [|ds n c k D [F V] K]; [split; [constructor|reflexivity]|].
    destruct (digit_is c k K) as [K1 K2]. split; [apply Forall_app; auto|].
    rewrite value_app. cbn [fold_left]. rewrite V, K2. reflexivity.
  - intros [F <-]. revert F. induction ds as [|c ds IH] using rev_ind; intros F; [constructor|].
    apply Forall_app in F. destruct F as [F K]. inversion K; subst. rewrite value_app. cbn [fold_left].
    apply dec_snoc; [auto|]. now apply is_digit_digit.
Qed.
Lemma span_spec p t a b : span p t = (a, b) ->
  t = a ++ b /\ Forall (fun c => p c = true) a /\ match b with [] => True | c :: _ => p c = false end.
Proof.
  revert a b. induction t as [|c t IH]; intros a b E; cbn [span] in E.
  - injection E as <- <-. repeat split. constructor.
  - destruct (p c) eqn:P.
    + destruct (span p t) as [a' b']. injection E as <- <-. destruct (IH a' b' eq_refl) as (-> & F & B).
      split; [reflexivity|]. split; [constructor; auto|exact B].
    + injection E as <- <-. split; [reflexivity|]. split; [constructor|exact P].
Qed.
Lemma all_blank_iff t : all_blank t = true <-> exists n, t = blanks n.
Proof.
  unfold all_blank. split.
  - intros H. exists (length t). induction t as [|c t IH]; [reflexivity|]. cbn [forallb] in H.
    apply andb_prop in H. destruct H as [H1 H2]. unfold is_blank in H1. apply Ascii.eqb_eq in H1. subst.
    cbn [length]. change (blanks (S (length t))) with (SP :: blanks (length t)). f_equal. auto.
  - intros [n ->]. apply forallb_forall. intros x Hx. apply repeat_spec in Hx. subst. reflexivity.
Qed.
Lemma drop_blanks_spec t : exists a, t = blanks a ++ drop_blanks t
  /\ match drop_blanks t with [] => True | c :: _ => is_blank c = false end.
Proof.
  unfold drop_blanks. destruct (span is_blank t) as [a b] eqn:E. cbn [snd].
  destruct (span_spec _ _ _ _ E) as (-> & F & B). exists (length a). split; [|exact B]. f_equal.
  clear -F. induction F as [|c a H F IH]; [reflexivity|]. unfold is_blank in H. apply Ascii.eqb_eq in H. subst.
  cbn [length]. change (blanks (S (length a))) with (SP :: blanks (length a)). congruence.
Qed.
Lemma take_sign_spec t neg u : take_sign t = (neg, u) -> exists sg, t = sg ++ u /\ sign sg neg.
Proof.
  unfold take_sign. destruct t as [|c t]; [intros E; injection E as <- <-; exists []; split; [reflexivity|constructor]|].
  destruct (Ascii.eqb_spec c "-") as [->|N1]; [intros E; injection E as <- <-; exists ["-"%char]; split; [reflexivity|constructor]|].
  destruct (Ascii.eqb_spec c "+") as [->|N2]; [intros E; injection E as <- <-; exists ["+"%char]; split; [reflexivity|constructor]|].
  intros E; injection E as <- <-. exists []; split; [reflexivity|constructor].
Qed.
(** what follows the sign does not start with a sign *)
Definition nosign (t : text) : Prop := match t with [] => True | c :: _ => c <> "-"%char /\ c <> "+"%char end.
Lemma sign_take sg neg u : sign sg neg -> (sg = [] -> nosign u) -> take_sign (sg ++ u) = (neg, u).
Proof.
  intros [] H; [|reflexivity|reflexivity]. cbn [app]. unfold take_sign. destruct u as [|c u]; [reflexivity|].
  destruct (H eq_refl) as [N1 N2]. destruct (Ascii.eqb_spec c "-"); [contradiction|]. destruct (Ascii.eqb_spec c "+"); [contradiction|]. reflexivity.
Qed.
Lemma digit_nosign c : is_digit c = true -> c <> "-"%char /\ c <> "+"%char /\ c <> "."%char /\ is_blank c = false
  /\ is_expchar c = false.
Proof.
  intros H. repeat split; try (intros ->; discriminate H).
  - unfold is_blank. destruct (Ascii.eqb_spec c SP) as [->|]; [discriminate H|reflexivity].
  - destruct (is_expchar c) eqn:E; [|reflexivity]. unfold is_expchar in E. rewrite !Bool.orb_true_iff in E.
    rewrite !Ascii.eqb_eq in E. destruct E as [[[->| ->]| ->]| ->]; discriminate H.
Qed.
Lemma drop_lead a t : match t with [] => True | c :: _ => is_blank c = false end -> drop_blanks (blanks a ++ t) = t.
Proof.
  intros H. unfold drop_blanks. rewrite span_all; [reflexivity| |].
  - apply Forall_forall. intros c Hc. apply repeat_spec in Hc. subst. reflexivity.
  - destruct t; auto.
Qed.
Lemma digits_then ds t : Forall (fun c => is_digit c = true) ds ->
  match t with [] => True | c :: _ => is_digit c = false end -> span is_digit (ds ++ t) = (ds, t).
Proof. intros H K. now apply span_all. Qed.
Lemma blanks_nodigit b : match blanks b with [] => True | c :: _ => is_digit c = false end.
Proof. destruct b; [exact Logic.I|reflexivity]. Qed.

Theorem C17_integer_fields : forall t z, read_int t = Some z <-> integer_field t z.
Proof.
  intros t z. split.
  - unfold read_int. destruct (drop_blanks_spec t) as (a & E & B). remember (drop_blanks t) as t1.
    destruct t1 as [|c t1]; intros H.
    + injection H as <-. rewrite E, app_nil_r. constructor.
    + destruct (take_sign (c :: t1)) as [neg t2] eqn:S. destruct (take_sign_spec _ _ _ S) as (sg & E2 & Sg).
      destruct (span is_digit t2) as [ds t3] eqn:Sp. destruct (span_spec _ _ _ _ Sp) as (E3 & F & _).
      destruct ds as [|d ds]; [discriminate|]. destruct (all_blank t3) eqn:A; [|discriminate].
      apply all_blank_iff in A. destruct A as [b ->]. rewrite E, E2, E3.
      replace z with (signed neg (value (d :: ds))) by (unfold signed; destruct neg; congruence).
      apply if_number; [exact Sg|now apply decimal_iff|discriminate].
  - intros [n|a sg neg ds n b Sg D N].
    + apply read_int_blanks.
    + apply decimal_iff in D. destruct D as [F <-]. destruct ds as [|d ds]; [congruence|].
      assert (Fd : is_digit d = true) by now inversion F. destruct (digit_nosign d Fd) as (N1 & N2 & N3 & N4 & N5).
      unfold read_int. rewrite drop_lead.
      2:{ destruct Sg; [exact N4|reflexivity|reflexivity]. }
      assert (Sh : exists c u, sg ++ (d :: ds) ++ blanks b = c :: u) by (destruct Sg; eexists; eexists; reflexivity).
      destruct Sh as (c & u & Sh). rewrite Sh. rewrite <- Sh. rewrite (sign_take sg neg) by (auto; intros; cbn; auto).
      rewrite digits_then; [|exact F|apply blanks_nodigit].
      assert (A : all_blank (blanks b) = true) by (apply all_blank_iff; eauto). rewrite A. destruct neg; reflexivity.
Qed.

(** a CONT one of whose integer fields is not an integer is refused *)
Theorem C17_malformed : forall mat mf mt s k, (k < 4)%nat ->
  (forall z, ~ integer_field (col (22 + 11 * k) 11 (nth_line (buf s) 0)) z) -> rejected (rd_cont mat mf mt s).
Proof.
  intros mat mf mt s k Hk H. destruct (rd_cont mat mf mt s) as [c s'|e s'|] eqn:E.
  - exfalso. destruct (C42_cont_columns _ _ _ _ _ _ E) as (_ & _ & A1 & A2 & A3 & A4).
    destruct k as [|[|[|[|k]]]]; [| | | |lia]; (eapply H; apply C17_integer_fields; eassumption).
  - assert (N := proj1 (C14_only_std_exception_escapes mat mf mt s)). rewrite E in N. exists e, s'. split; [reflexivity|exact N].
  - assert (N := proj1 (C14_only_std_exception_escapes mat mf mt s)). rewrite E in N. destruct N.
Qed.

Lemma expchar_in c : is_expchar c = true <-> In c ["e"; "E"; "d"; "D"]%char.
Proof.
  unfold is_expchar. rewrite !Bool.orb_true_iff, !Ascii.eqb_eq. cbn [In]. intuition congruence.
Qed.
Lemma read_exp_sound t k u : read_exp t = Some (k, u) -> exists ex, t = ex ++ u /\ exponent ex k.
Proof.
  unfold read_exp. destruct t as [|c t]; [intros E; injection E as <- <-; exists []; split; [reflexivity|constructor]|].
  assert (G : forall t0, (let (neg, t1) := take_sign t0 in let (ds, t2) := span is_digit t1 in
      match ds with [] => None | _ => Some (if neg then - value ds else value ds, t2) end) = Some (k, u) ->
      exists sg neg ds n, t0 = sg ++ ds ++ u /\ sign sg neg /\ decimal ds n /\ ds <> [] /\ k = signed neg n).
  { intros t0 E. destruct (take_sign t0) as [neg t1] eqn:S. destruct (take_sign_spec _ _ _ S) as (sg & -> & Sg).
    destruct (span is_digit t1) as [ds t2] eqn:Sp. destruct (span_spec _ _ _ _ Sp) as (-> & F & _).
    destruct ds as [|d ds]; [discriminate|]. injection E as <- <-. exists sg, neg, (d :: ds), (value (d :: ds)).
    repeat split; auto; [now apply decimal_iff|discriminate]. }
  destruct (is_expchar c) eqn:X.
  - intros E. destruct (G t E) as (sg & neg & ds & n & -> & Sg & D & N & ->). exists (c :: sg ++ ds).
    split; [cbn [app]; now rewrite <- app_assoc|]. apply ex_letter; auto. now apply expchar_in.
  - destruct (_ || _)%bool eqn:Y.
    + intros E. destruct (G _ E) as (sg & neg & ds & n & Et & Sg & D & N & ->). exists (sg ++ ds).
      split; [now rewrite <- app_assoc|]. apply ex_sign; auto. intros ->. cbn [app] in Et.
      apply decimal_iff in D. destruct D as [F _]. destruct ds as [|d ds]; [congruence|]. injection Et as -> _.
      inversion F; subst. destruct (digit_nosign d) as (N1 & N2 & _); auto. apply Bool.orb_true_iff in Y.
      rewrite !Ascii.eqb_eq in Y. destruct Y; congruence.
    + intros E. injection E as <- <-. exists []. split; [reflexivity|constructor].
Qed.
Lemma read_exp_complete ex k b : exponent ex k -> read_exp (ex ++ blanks b) = Some (k, blanks b).
Proof.
  assert (G : forall sg neg ds n, sign sg neg -> decimal ds n -> ds <> [] ->
    (let (neg, t1) := take_sign ((sg ++ ds) ++ blanks b) in let (ds, t2) := span is_digit t1 in
      match ds with [] => None | _ => Some (if neg then - value ds else value ds, t2) end) = Some (signed neg n, blanks b)).
  { intros sg neg ds n Sg D N. apply decimal_iff in D. destruct D as [F <-]. destruct ds as [|d ds]; [congruence|].
    assert (Fd : is_digit d = true) by now inversion F. destruct (digit_nosign d Fd) as (N1 & N2 & _).
    rewrite <- app_assoc. rewrite (sign_take sg neg) by (auto; intros; cbn; auto).
    rewrite digits_then; [|exact F|apply blanks_nodigit]. destruct neg; reflexivity. }
  intros [|sg neg ds n Sg Ns D N|c sg neg ds n Hc Sg D N].
  - cbn [app]. unfold read_exp. destruct b; reflexivity.
  - specialize (G sg neg ds n Sg D N). destruct Sg; [congruence| |]; cbn [app] in *; unfold read_exp; cbn [is_expchar Ascii.eqb Bool.eqb orb]; exact G.
  - cbn [app]. unfold read_exp. rewrite (proj2 (expchar_in c) Hc). apply G; auto.
Qed.
Lemma exponent_head ex k b : exponent ex k ->
  match ex ++ blanks b with [] => True | c :: _ => is_digit c = false /\ c <> "."%char end.
Proof.
  intros [|sg neg ds n Sg Ns D N|c sg neg ds n Hc Sg D N].
  - destruct b; cbn; [exact Logic.I|]. split; [reflexivity|discriminate].
  - destruct Sg; [congruence| |]; cbn; (split; [reflexivity|discriminate]).
  - cbn [app]. cbn [In] in Hc. intuition (subst; try reflexivity; try discriminate).
Qed.

(** the fields that are read, and what they are read as *)
Theorem C16_real_fields : forall t x, read_real t = Some x <->
  (exists n, t = blanks n /\ x = rzero) \/ exists neg n k, real_field t neg n k /\ dec_double neg n k = Some x.
Proof.
  intros t x. split.
  - unfold read_real. destruct (drop_blanks_spec t) as (a & E & B). remember (drop_blanks t) as t1.
    destruct t1 as [|c t1]; intros H.
    { injection H as <-. left. exists a. rewrite E, app_nil_r. auto. }
    right. destruct (take_sign (c :: t1)) as [neg t2] eqn:S. destruct (take_sign_spec _ _ _ S) as (sg & E2 & Sg).
    destruct (span is_digit t2) as [ip t3] eqn:Sp. destruct (span_spec _ _ _ _ Sp) as (E3 & F & H3).
    assert (P : (exists fp t4, t3 = "."%char :: fp ++ t4 /\ Forall (fun c => is_digit c = true) fp /\
                   match t3 with c :: t' => if Ascii.eqb c "." then span is_digit t' else ([], t3) | [] => ([], []) end = (fp, t4))
                \/ match t3 with c :: t' => if Ascii.eqb c "." then span is_digit t' else ([], t3) | [] => ([], []) end = ([], t3)).
    { destruct t3 as [|c3 t3]; [right; reflexivity|]. destruct (Ascii.eqb_spec c3 ".") as [->|]; [|right; reflexivity].
      left. destruct (span is_digit t3) as [fp t4] eqn:Sf. destruct (span_spec _ _ _ _ Sf) as (-> & Ff & _). exists fp, t4. auto. }
    destruct P as [(fp & t4 & E4 & Ff & P)|P]; rewrite P in H.
    + remember (ip ++ fp) as dg. destruct dg as [|d dg]; [discriminate|].
      destruct (read_exp t4) as [[k t5]|] eqn:Re; [|discriminate]. destruct (read_exp_sound _ _ _ Re) as (ex & E5 & Ex).
      destruct (all_blank t5) eqn:A; [|discriminate]. apply all_blank_iff in A. destruct A as [b ->].
      exists neg, (value (d :: dg)), (k - Z.of_nat (length fp)). split; [|exact H].
      rewrite E, E2, E3, E4, E5. apply rf_point; auto.
      * apply decimal_iff. rewrite <- Heqdg. split; [|reflexivity]. rewrite Heqdg. apply Forall_app. auto.
      * rewrite <- Heqdg. discriminate.
    + rewrite app_nil_r in H. destruct ip as [|d ip]; [discriminate|].
      destruct (read_exp t3) as [[k t5]|] eqn:Re; [|discriminate]. destruct (read_exp_sound _ _ _ Re) as (ex & E5 & Ex).
      destruct (all_blank t5) eqn:A; [|discriminate]. apply all_blank_iff in A. destruct A as [b ->].
      cbn [length] in H. rewrite Z.sub_0_r in H. exists neg, (value (d :: ip)), k. split; [|exact H].
      rewrite E, E2, E3, E5. apply rf_whole; auto; [now apply decimal_iff|discriminate].
  - intros [(n & -> & ->)|(neg & n & k & R & H)].
    { unfold read_real. rewrite <- (app_nil_r (blanks n)). rewrite drop_lead; auto. }
    destruct R as [a sg neg ip n ex k b Sg D N Ex|a sg neg ip fp n ex k b Sg D N Ex].
    + apply decimal_iff in D. destruct D as [F <-]. destruct ip as [|d ip]; [congruence|].
      assert (Fd : is_digit d = true) by now inversion F. destruct (digit_nosign d Fd) as (N1 & N2 & N3 & N4 & N5).
      unfold read_real. rewrite drop_lead.
      2:{ destruct Sg; [exact N4|reflexivity|reflexivity]. }
      assert (Sh : exists c u, sg ++ (d :: ip) ++ ex ++ blanks b = c :: u) by (destruct Sg; eexists; eexists; reflexivity).
      destruct Sh as (c & u & Sh). rewrite Sh. rewrite <- Sh. rewrite (sign_take sg neg) by (auto; intros; cbn; auto).
      assert (Hh := exponent_head ex k b Ex).
      rewrite digits_then; [|exact F|destruct (ex ++ blanks b); [exact Logic.I|exact (proj1 Hh)]].
      assert (Re := read_exp_complete ex k b Ex).
      assert (A : all_blank (blanks b) = true) by (apply all_blank_iff; eauto).
      destruct (ex ++ blanks b) as [|c3 t3].
      * cbv iota. rewrite app_nil_r. cbv iota. rewrite Re, A. cbn [length]. rewrite Z.sub_0_r. exact H.
      * destruct (Ascii.eqb_spec c3 "."); [destruct Hh; congruence|]. cbv iota. rewrite app_nil_r. cbv iota.
        rewrite Re, A. cbn [length]. rewrite Z.sub_0_r. exact H.
    + assert (FF := proj1 (decimal_iff _ _) D). destruct FF as [FF V]. apply Forall_app in FF. destruct FF as [F Ff].
      unfold read_real. rewrite drop_lead.
      2:{ destruct Sg; [|reflexivity|reflexivity]. cbn [app]. destruct ip as [|d ip]; [reflexivity|]. inversion F; subst. now apply digit_nosign. }
      assert (Sh : exists c u, sg ++ ip ++ "."%char :: fp ++ ex ++ blanks b = c :: u).
      { destruct Sg; [destruct ip|..]; eexists; eexists; reflexivity. }
      destruct Sh as (c & u & Sh). rewrite Sh. rewrite <- Sh.
      rewrite (sign_take sg neg); [|exact Sg|].
      2:{ intros _. destruct ip as [|d ip]; [split; discriminate|]. inversion F; subst. destruct (digit_nosign d) as (N1 & N2 & _); auto. split; auto. }
      rewrite digits_then; [|exact F|reflexivity]. cbv iota. change (Ascii.eqb "." ".") with true. cbv iota.
      assert (Hh := exponent_head ex k b Ex).
      rewrite digits_then; [|exact Ff|destruct (ex ++ blanks b); [exact Logic.I|exact (proj1 Hh)]].
      destruct (ip ++ fp) as [|d dg] eqn:Q; [congruence|]. rewrite (read_exp_complete ex k b Ex).
      assert (A : all_blank (blanks b) = true) by (apply all_blank_iff; eauto). rewrite A, V. exact H.
Qed.

(** ** the nearest double *)
Definition finite_double (x : real) : Prop := 0 <= rman x < 2 ^ 53 /\ -1074 <= rexp x <= 971.
(** (-1)^neg * n * 10^k *)
Definition decimal_value (neg : bool) (n k : Z) : Q := (inject_Z (signed neg n) * Qpower (inject_Z 10) k)%Q.

Lemma rne_best a b j : 0 < b -> Z.abs (a - b * rne a b) <= Z.abs (a - b * j).
Proof. intros Hb. assert (K := rne_err a b Hb). destruct (Z.eq_dec j (rne a b)) as [->|N]; [lia|]. nia. Qed.
Lemma rne_bestQ a b j : 0 < b -> (Qabs (frac a b - inject_Z (rne a b)) <= Qabs (frac a b - inject_Z j))%Q.
Proof.
  intros Hb. assert (K := rne_best a b j Hb). assert (E := frac_mul a b Hb).
  assert (P : (0 < inject_Z b)%Q) by (change 0%Q with (inject_Z 0); now apply ilt).
  assert (G : forall i, (Qabs (frac a b - inject_Z i) * inject_Z b == inject_Z (Z.abs (a - b * i)))%Q).
  { intros i. assert (Pb : (Qabs (inject_Z b) == inject_Z b)%Q) by (apply Qabs_pos; lra).
    rewrite <- Pb, <- Qabs_Qmult.
    assert (X : ((frac a b - inject_Z i) * inject_Z b == inject_Z (a - b * i))%Q).
    { unfold Z.sub. rewrite inject_Z_plus, inject_Z_opp, inject_Z_mult, <- E. ring. }
    rewrite X. reflexivity. }
  apply ile in K. rewrite <- !G in K. apply (Qmult_lt_0_le_reg_r _ _ (inject_Z b)); auto.
Qed.
Lemma rne_at_best a b e j : 0 < a -> 0 < b ->
  (Qabs (frac a b - inject_Z (rne_at 2 a b e) * bp 2 e) <= Qabs (frac a b - inject_Z j * bp 2 e))%Q.
Proof.
  intros Ha Hb. unfold rne_at.
  assert (K := rne_bestQ (scn 2 a e) (scd 2 b e) j (scd_pos 2 b e Hb ltac:(lia))).
  assert (P := bp_pos 2 e ltac:(lia)). assert (O := bp_opp 2 e ltac:(lia)).
  assert (X : forall i, (Qabs (frac a b - inject_Z i * bp 2 e) == Qabs (frac (scn 2 a e) (scd 2 b e) - inject_Z i) * bp 2 e)%Q).
  { intros i. assert (Pb : (Qabs (bp 2 e) == bp 2 e)%Q) by (apply Qabs_pos; lra).
    rewrite <- Pb at 2. rewrite <- Qabs_Qmult. rewrite (sc_frac 2 a b e) by lia.
    set (v := frac a b). set (B := bp 2 e) in *. set (B' := bp 2 (- e)) in *.
    assert (Y : ((v * B' - inject_Z i) * B == v - inject_Z i * B)%Q).
    { transitivity (v * (B * B') - inject_Z i * B)%Q; [ring|]. rewrite O. ring. }
    rewrite Y. reflexivity. }
  rewrite !X. nra.
Qed.
Lemma nearest_pos a b q f : 0 < a -> 0 < b -> Z.abs q < 2 ^ 53 -> -1074 <= f ->
  (Qabs (val 2 (rnd 2 53 (-1074) a b) - frac a b) <= Qabs (inject_Z q * bp 2 f - frac a b))%Q.
Proof.
  intros Ha Hb Hq Hf. rewrite rnd_val by lia. set (e := rexp0 2 53 (-1074) a b).
  rewrite (Qabs_Qminus _ (frac a b)). rewrite (Qabs_Qminus (inject_Z q * bp 2 f)).
  destruct (Z.le_gt_cases e f) as [G|G].
  - assert (X : (inject_Z q * bp 2 f == inject_Z (q * 2 ^ (f - e)) * bp 2 e)%Q).
    { rewrite inject_Z_mult, <- bp_int by lia. rewrite <- Qmult_assoc, <- bp_plus by lia. replace (f - e + e) with f by lia. reflexivity. }
    rewrite X. now apply rne_at_best.
  - assert (Ee : e = flog 2 a b - 52) by (unfold e, rexp0 in *; lia).
    destruct (flog_spec 2 a b ltac:(lia) Ha Hb) as [F1 _].
    eapply Qle_trans; [apply (rne_at_best a b e (2 ^ 52) Ha Hb)|].
    assert (X : (inject_Z (2 ^ 52) * bp 2 e == bp 2 (flog 2 a b))%Q).
    { rewrite <- bp_int, <- bp_plus by lia. replace (52 + e) with (flog 2 a b) by lia. reflexivity. }
    rewrite X. rewrite Qabs_pos by lra.
    assert (Y : (inject_Z q * bp 2 f <= bp 2 (flog 2 a b))%Q).
    { apply Qle_trans with (bp 2 53 * bp 2 f)%Q.
      - assert (P := bp_pos 2 f ltac:(lia)). assert (Hq' : (inject_Z q <= bp 2 53)%Q) by (rewrite bp_int by lia; apply ile; lia). nra.
      - rewrite <- bp_plus by lia. apply bp_le; lia. }
    rewrite Qabs_pos by lra. lra.
Qed.
Lemma rne_at_nonneg a b e : 0 < a -> 0 < b -> 0 <= rne_at 2 a b e.
Proof.
  intros Ha Hb. unfold rne_at. assert (P := scn_pos 2 a e Ha ltac:(lia)). assert (D := scd_pos 2 b e Hb ltac:(lia)).
  rewrite <- (rne_exact 0 1) by lia. apply rne_mono; lia.
Qed.
Theorem C16_nearest : forall neg n k x, 0 <= n -> dec_double neg n k = Some x ->
  finite_double x /\ rneg x = neg
  /\ forall y, finite_double y ->
       (Qabs (valQ x - decimal_value neg n k) <= Qabs (valQ y - decimal_value neg n k))%Q.
Proof.
  intros neg n k x Hn H. destruct (Z.eq_dec n 0) as [->|Nz].
  - assert (Ex : x = mkreal neg 0 0) 
      by (unfold dec_double in H; rewrite Z.mul_0_l in H; destruct (k <? 0); unfold to_double in H; change (0 =? 0) with true in H; cbv iota in H; congruence).
    subst x. split; [split; cbn; lia|]. split; [reflexivity|]. intros y _.
    assert (V : (decimal_value neg 0 k == 0)%Q) by (unfold decimal_value, signed; destruct neg; change (inject_Z (- 0)) with 0%Q; change (inject_Z 0) with 0%Q; ring).
    assert (X : (valQ (mkreal neg 0 0) == 0)%Q) by (unfold valQ, rsig; cbn [rneg rman rexp]; destruct neg; reflexivity).
    rewrite V, X. setoid_replace (0 - 0)%Q with 0%Q by ring. change (Qabs 0) with 0%Q. apply Qabs_nonneg.
  - destruct (dec_double_frac neg n k ltac:(lia)) as (a & b & Ha & Hb & E & V). rewrite E in H. clear E.
    assert (Vd : (decimal_value neg n k == inject_Z (signed neg 1) * frac a b)%Q).
    { rewrite V. unfold decimal_value, bp, signed. destruct neg; [rewrite inject_Z_opp|]; change (inject_Z (-(1))) with (- inject_Z 1)%Q; ring. }
    assert (A : finite_double x /\ rneg x = neg /\ (absQ x == val 2 (rnd 2 53 (-1074) a b))%Q).
    { unfold to_double in H. destruct (Z.eqb_spec a 0); [lia|].
      destruct (rnd 2 53 (-1074) a b) as [m e] eqn:R.
      assert (M : 0 <= m < 2 ^ 53 /\ -1074 <= e).
      { assert (R' := R). unfold rnd in R'. fold (rexp0 2 53 (-1074) a b) in R'. fold (rne_at 2 a b (rexp0 2 53 (-1074) a b)) in R'.
        assert (N := rne_at_nonneg a b (rexp0 2 53 (-1074) a b) Ha Hb).
        destruct (rne_at_range 2 53 (-1074) ltac:(lia) ltac:(lia) a b Ha Hb) as [U _].
        assert (L : -1074 <= rexp0 2 53 (-1074) a b) by (unfold rexp0; lia).
        destruct (Z.eqb_spec (rne_at 2 a b (rexp0 2 53 (-1074) a b)) (2 ^ 53)); injection R' as <- <-.
        - split; [change (2 ^ (53 - 1)) with 4503599627370496; change (2 ^ 53) with 9007199254740992; lia|lia].
        - lia. }
      destruct (Z.eqb_spec m 0) as [->|Nm].
      - injection H as <-. split; [split; cbn; lia|]. split; [reflexivity|]. unfold absQ, val. cbn [rman rexp fst snd]. change (inject_Z 0) with 0%Q. ring.
      - destruct (971 <? e) eqn:O; [discriminate|]. injection H as <-. split; [split; cbn [rman rexp]; lia|]. split; [reflexivity|]. reflexivity. }
    destruct A as (A1 & A2 & A3). split; [exact A1|]. split; [exact A2|]. intros y [Y1 Y2].
    assert (S1 : forall q, (Qabs (inject_Z (signed neg 1) * q) == Qabs q)%Q).
    { intros q. unfold signed. destruct neg; [change (inject_Z (-(1))) with (- inject_Z 1)%Q|]; change (inject_Z 1) with 1%Q.
      - setoid_replace (- (1) * q)%Q with (- q)%Q by ring. apply Qabs_opp.
      - setoid_replace (1 * q)%Q with q by ring. reflexivity. }
    assert (S2 : (inject_Z (signed neg 1) * inject_Z (signed neg 1) == 1)%Q) by (destruct neg; reflexivity).
    assert (X1 : (valQ x == inject_Z (signed neg 1) * absQ x)%Q).
    { rewrite valQ_sign, A2. unfold signed. destruct neg; [change (inject_Z (-(1))) with (- inject_Z 1)%Q|]; change (inject_Z 1) with 1%Q; ring. }
    assert (X2 : (valQ y == inject_Z (signed neg 1) * (inject_Z (signed neg 1 * rsig y) * bp 2 (rexp y)))%Q).
    { rewrite inject_Z_mult. unfold valQ.
      transitivity (inject_Z (signed neg 1) * inject_Z (signed neg 1) * (inject_Z (rsig y) * bp 2 (rexp y)))%Q; [rewrite S2; ring|ring]. }
    rewrite Vd, X1, X2, A3. set (sg := inject_Z (signed neg 1)) in *.
    assert (D1 : forall p q, (sg * p - sg * q == sg * (p - q))%Q) by (intros; ring). rewrite !D1, !S1.
    apply nearest_pos; auto; [|lia]. unfold rsig, signed. destruct neg, (rneg y); lia.
Qed.

(** ** the printed decimal *)
Lemma fmt_field s D E : 0 <= D < 10 ^ zone E ->
  real_field (fmt s (zone E) D E) s D (E - (zone E - 1)).
Proof.
  intros H. rewrite fmt_zone, Z.sub_diag, Z.pow_0_r, Z.mul_1_r. assert (Z1 := zone_range E).
  assert (L := fmt_digits_length (zone E) D ltac:(lia) H).
  assert (F := fmt_digits_digits (zone E) D ltac:(lia)). assert (V := fmt_digits_value (zone E) D ltac:(lia)).
  set (ds := fmt_digits (zone E) D) in *.
  assert (Lf : length (skipn 1 ds) = Z.to_nat (zone E - 1)) by (rewrite skipn_length; lia).
  replace (E - (zone E - 1)) with (E - Z.of_nat (length (skipn 1 ds))) by lia.
  set (ex := (if E <? 0 then "-"%char else "+"%char) :: show_nonneg (Z.abs E)).
  assert (Ex : exponent ex E).
  { assert (Es : signed (E <? 0) (Z.abs E) = E) by (unfold signed; destruct (Z.ltb_spec E 0); lia).
    assert (Ex : exponent ex (signed (E <? 0) (Z.abs E))); [|now rewrite Es in Ex]. clear Es. unfold ex.
    assert (D' : decimal (show_nonneg (Z.abs E)) (Z.abs E)).
    { apply decimal_iff. split; [apply show_nonneg_digits; lia|apply show_nonneg_value; lia]. }
    assert (N : show_nonneg (Z.abs E) <> []).
    { intros K. assert (LL := show_nonneg_value (Z.abs E) ltac:(lia)). destruct (Z.eq_dec (Z.abs E) 0) as [Z0|Z0].
      - rewrite Z0 in K. discriminate K.
      - rewrite K in LL. cbn in LL. lia. }
    destruct (E <? 0).
    - apply (ex_sign ["-"%char] true); auto; [constructor|discriminate].
    - apply (ex_sign ["+"%char] false); auto; [constructor|discriminate]. }
  assert (N : ds <> []) by (intros K; rewrite K in L; cbn in L; lia).
  assert (D' : decimal (firstn 1 ds ++ skipn 1 ds) D) by (rewrite firstn_skipn; apply decimal_iff; auto).
  assert (N' : firstn 1 ds ++ skipn 1 ds <> []) by (rewrite firstn_skipn; auto).
  destruct s.
  - assert (R := rf_point 0 ["-"%char] true (firstn 1 ds) (skipn 1 ds) D ex E 0 sg_minus D' N' Ex).
    rewrite app_nil_r in R. exact R.
  - assert (R := rf_point 1 [] false (firstn 1 ds) (skipn 1 ds) D ex E 0 sg_none D' N' Ex).
    rewrite app_nil_r in R. exact R.
Qed.
(** r10 p x is p digits rounded: half a unit of the p-th digit of x *)
Lemma r10_near p x : 1 <= p <= 7 -> moderate x -> rman x <> 0 ->
  exists f, (bp 10 f <= absQ x)%Q /\ (absQ x < bp 10 (f + 1))%Q /\ (bp 10 f <= r10 p x)%Q
    /\ (Qabs (absQ x - r10 p x) <= (1 # 2) * bp 10 (f - (p - 1)))%Q.
Proof.
  intros Hp Hm Hn. destruct (moderate_bounds x Hm Hn) as [B1 B2].
  assert (Pm : 0 < rman x).
  { assert (K := moderate_man x Hm). lia. }
  assert (Pa := scn_pos 2 (rman x) (- rexp x) Pm ltac:(lia)). assert (Pb := scd_pos 2 1 (- rexp x) ltac:(lia) ltac:(lia)).
  assert (Ef := dec_frac (rman x) (rexp x)). fold (absQ x) in Ef.
  assert (Fb : -400 <= flog 10 (scn 2 (rman x) (- rexp x)) (scd 2 1 (- rexp x)) < 400).
  { apply (flog_bounds _ _ (absQ x)); auto; [eapply Qle_trans; [apply bp_dec_lo|exact B1]|eapply Qlt_trans; [exact B2|apply bp_dec_hi]]. }
  destruct (flog_spec 10 _ _ ltac:(lia) Pa Pb) as [F1 F2]. rewrite Ef in F1, F2.
  exists (flog 10 (scn 2 (rman x) (- rexp x)) (scd 2 1 (- rexp x))). split; [exact F1|]. split; [exact F2|].
  unfold r10. destruct (rnd 10 p (-100000) (scn 2 (rman x) (- rexp x)) (scd 2 1 (- rexp x))) as [m e] eqn:R.
  destruct (rnd_spec 10 p (-100000) ltac:(lia) ltac:(lia) _ _ m e Pa Pb ltac:(lia) R) as ((M1 & M2) & Er & Ee).
  rewrite Ef in Er. unfold val. cbn [fst snd]. split; [|exact Er].
  set (f := flog 10 _ _) in *. apply ile in M1. rewrite <- bp_int in M1 by lia.
  assert (P := bp_pos 10 e ltac:(lia)).
  apply Qle_trans with (bp 10 (p - 1) * bp 10 e)%Q; [|nra]. rewrite <- bp_plus by lia. apply bp_le; lia.
Qed.
Lemma zone7 E : Z.abs E < 10 -> zone E = 7. Proof. intros H. unfold zone. destruct (Z.ltb_spec (Z.abs E) 10); [reflexivity|lia]. Qed.
Lemma zone6 E : 10 <= Z.abs E < 100 -> zone E = 6.
Proof. intros H. unfold zone. destruct (Z.ltb_spec (Z.abs E) 10); [lia|]. destruct (Z.ltb_spec (Z.abs E) 100); [reflexivity|lia]. Qed.
Lemma zone5 E : 100 <= Z.abs E -> zone E = 5.
Proof. intros H. unfold zone. destruct (Z.ltb_spec (Z.abs E) 10); [lia|]. destruct (Z.ltb_spec (Z.abs E) 100); [lia|reflexivity]. Qed.
(** A printed double is the decimal of 7, 6 or 5 digits (for exponents of one, two or
    three digits) that differs from it by at most half a unit of the last digit. *)
Theorem C16_printed_decimal : forall x, moderate x -> rman x <> 0 ->
  exists n k p, real_field (write_real x) (rneg x) n k /\ 10 ^ (p - 1) <= n < 10 ^ p
    /\ p = (if Z.abs (k + p - 1) <? 10 then 7 else if Z.abs (k + p - 1) <? 100 then 6 else 5)
    /\ (Qabs (valQ x - decimal_value (rneg x) n k) <= (1 # 2) * Qpower (inject_Z 10) k)%Q.
Proof.
  intros x Hm Hn. destruct (write_shape x Hm Hn) as (E & D & W & Zd & HE & _ & _ & Cs).
  assert (Pm : 0 < rman x) by (assert (K := moderate_man x Hm); lia).
  destruct (dec_exp (zone E) D E ltac:(assert (K := zone_range E); lia) Zd) as [L1 L2]. fold (decQ E D) in L1, L2.
  exists D, (E - (zone E - 1)), (zone E). rewrite W. split.
  { apply fmt_field. destruct Zd as [Z1 Z2]. assert (P := zdec_pos E D (conj Z1 Z2)). lia. }
  split; [exact Zd|]. split; [replace (E - (zone E - 1) + zone E - 1) with E by lia; reflexivity|].
  assert (S : (Qabs (valQ x - decimal_value (rneg x) D (E - (zone E - 1))) == Qabs (absQ x - decQ E D))%Q).
  { rewrite valQ_sign. unfold decimal_value, signed, decQ, bp. destruct (rneg x); [|reflexivity].
    rewrite inject_Z_opp. rewrite <- Qabs_opp. setoid_replace (- (- absQ x - - inject_Z D * Qpower (inject_Z 10) (E - (zone E - 1))))%Q
      with (absQ x - inject_Z D * Qpower (inject_Z 10) (E - (zone E - 1)))%Q by ring. reflexivity. }
  rewrite S. change (Qpower (inject_Z 10) (E - (zone E - 1))) with (bp 10 (E - (zone E - 1))).
  assert (Fin : forall p f, (decQ E D == r10 p x)%Q -> (bp 10 f <= r10 p x)%Q ->
      (Qabs (absQ x - r10 p x) <= (1 # 2) * bp 10 (f - (p - 1)))%Q -> (f <= E -> f - (p - 1) <= E - (zone E - 1)) ->
      (Qabs (absQ x - decQ E D) <= (1 # 2) * bp 10 (E - (zone E - 1)))%Q).
  { intros p f V F3 F4 K. rewrite V. eapply Qle_trans; [exact F4|].
    assert (f < E + 1). { apply (bp_lt_inv 10); [lia|]. eapply Qle_lt_trans; [exact F3|]. rewrite <- V. exact L2. }
    assert (B := bp_le 10 _ _ ltac:(lia) (K ltac:(lia))). lra. }
  assert (Ex := exp_range (zone E) D E). fold (decQ E D) in Ex.
  destruct Cs as [(I7 & V)|[(N7 & I6 & V)|(N7 & N6 & V)]].
  - destruct (r10_near 7 x ltac:(lia) Hm Hn) as (f & F1 & F2 & F3 & F4). apply (Fin 7 f V F3 F4).
    assert (HE7 : Z.abs E < 10). { apply (Ex 10); [assert (K := zone_range E); lia|exact Zd|]. rewrite V. exact I7. }
    rewrite (zone7 E HE7). lia.
  - destruct (r10_near 6 x ltac:(lia) Hm Hn) as (f & F1 & F2 & F3 & F4). apply (Fin 6 f V F3 F4). intros Hf.
    assert (HE6 : Z.abs E < 100). { apply (Ex 100); [assert (K := zone_range E); lia|exact Zd|]. rewrite V. exact I6. }
    destruct (Z.lt_ge_cases (Z.abs E) 10) as [HE7|HE7]; [|rewrite (zone6 E) by lia; lia].
    rewrite (zone7 E HE7). enough (f < E) by lia.
    destruct (Z.lt_ge_cases f E) as [|G]; [auto|exfalso]. apply N7.
    (* 10^E <= |x| < 10^(E+1) with |E| < 10: seven digits keep x in the range *)
    assert (Ef : f = E) by lia. subst f.
    split.
    + eapply Qle_trans; [apply (bp_le 10 (-9) E); lia|]. apply r10_ge_pow; try lia. exact F1.
    + destruct (Qlt_le_dec (r10 7 x) (bp 10 10)) as [|G2]; [auto|exfalso].
      assert (G3 : (bp 10 10 <= r10 6 x)%Q) by (apply (r10_ge_fewer 7 6); auto; lia).
      rewrite <- V in G3. assert (10 < E + 1) by (apply (bp_lt_inv 10); [lia|lra]). lia.
  - destruct (r10_near 5 x ltac:(lia) Hm Hn) as (f & F1 & F2 & F3 & F4). apply (Fin 5 f V F3 F4). intros Hf.
    destruct (Z.lt_ge_cases (Z.abs E) 100) as [HE6|HE6]; [|rewrite (zone5 E) by lia; lia].
    assert (Nf : forall b q, 5 < q <= 7 -> 10 <= b <= 100 -> Z.abs E < b ->
      ~ ((bp 10 (1 - b) <= r10 q x)%Q /\ (r10 q x < bp 10 b)%Q) -> f < E).
    { intros b q Hq Hb HEb N. destruct (Z.lt_ge_cases f E) as [|G]; [auto|exfalso]. apply N.
      assert (Ef : f = E) by lia. subst f. split.
      - eapply Qle_trans; [apply (bp_le 10 (1 - b) E); lia|]. apply r10_ge_pow; try lia. exact F1.
      - destruct (Qlt_le_dec (r10 q x) (bp 10 b)) as [|G2]; [auto|exfalso].
        assert (G3 : (bp 10 b <= r10 5 x)%Q) by (apply (r10_ge_fewer q 5); auto; lia).
        rewrite <- V in G3. assert (b < E + 1) by (apply (bp_lt_inv 10); [lia|lra]). lia. }
    assert (K6 := Nf 100 6 ltac:(lia) ltac:(lia) HE6 N6).
    destruct (Z.lt_ge_cases (Z.abs E) 10) as [HE7|HE7]; [|rewrite (zone6 E) by lia; lia].
    rewrite (zone7 E HE7). exfalso.
    (* |E| < 10 is impossible here: six digits would have been enough *)
    apply N6. split.
    + eapply Qle_trans; [apply (bp_le 10 (-99) (-20)); lia|]. apply r10_ge_pow; try lia.
      eapply Qle_trans; [|exact F1]. apply bp_le; [lia|].
      assert (X := r10_le_pow 5 (f + 1) x ltac:(lia)).
      destruct (Z.lt_ge_cases (f + 1) (-19)) as [G|G]; [exfalso|lia].
      assert (Y : (r10 5 x <= bp 10 (-19))%Q).
      { apply r10_le_pow; try lia. apply Qlt_le_weak. eapply Qlt_le_trans; [exact F2|]. apply bp_le; lia. }
      rewrite <- V in Y. assert (E < -19 + 1); [|lia]. assert (bp 10 E <= bp 10 (-19))%Q by lra.
      apply (bp_lt_inv 10); [lia|]. eapply Qle_lt_trans; [eassumption|]. apply bp_lt; lia.
    + destruct (Qlt_le_dec (r10 6 x) (bp 10 100)) as [|G2]; [auto|exfalso].
      assert (G3 : (bp 10 100 <= r10 5 x)%Q) by (apply (r10_ge_fewer 6 5); auto; lia).
      rewrite <- V in G3. assert (100 < E + 1) by (apply (bp_lt_inv 10); [lia|lra]). lia.
Qed.
Example C16_field_example : moderate r_third /\ rman r_third <> 0
  /\ integer_field (blanks 3 ++ ["-"; "1"; "2"]%char ++ blanks 2) (-12)
  /\ ~ (exists z, integer_field ["1"; "x"]%char z)
  /\ exists x, real_field (list_ascii_of_string " 3.333333-1"%string) false 3333333 (-7)
       /\ dec_double false 3333333 (-7) = Some x.
Proof.
  split; [exact (proj1 C16_example)|]. split; [discriminate|]. split.
  { apply C17_integer_fields. vm_compute. reflexivity. }
  split; [intros [z H]; apply C17_integer_fields in H; vm_compute in H; discriminate|].
  eexists. split; [|vm_compute; reflexivity].
  change (-7) with (-1 - Z.of_nat 6). change (list_ascii_of_string " 3.333333-1"%string) with (fmt false (zone (-1)) 3333333 (-1)).
  exact (fmt_field false 3333333 (-1) ltac:(vm_compute; split; congruence)).
Qed.
