(** DiscoProofs.v -- facts about the field codecs. *)
From Verif Require Import Base Disco.
Open Scope Z_scope.

(** ** digits *)
Lemma digit_char_val d : 0 <= d < 10 -> digit_val (digit_char d) = Some d.
Proof.
  intros H. assert (K : d = 0 \/ d = 1 \/ d = 2 \/ d = 3 \/ d = 4 \/ d = 5 \/ d = 6
                        \/ d = 7 \/ d = 8 \/ d = 9) by lia.
  destruct K as [->|[->|[->|[->|[->|[->|[->|[->|[->| ->]]]]]]]]]; reflexivity.
Qed.

Lemma digit_char_is d : 0 <= d < 10 -> is_digit (digit_char d) = true.
Proof. intros H. unfold is_digit. now rewrite digit_char_val. Qed.

Lemma dval_digit d : 0 <= d < 10 -> dval (digit_char d) = d.
Proof. intros H. unfold dval. now rewrite digit_char_val. Qed.

Definition vfold (a : Z) (ds : text) : Z := fold_left (fun a c => 10 * a + dval c) ds a.

Lemma value_vfold ds : value ds = vfold 0 ds.
Proof. reflexivity. Qed.

Lemma show_aux_app fuel : forall n acc, show_aux fuel n acc = show_aux fuel n [] ++ acc.
Proof.
  induction fuel as [|f IH]; intros n acc; simpl; auto.
  destruct (n <? 10); auto.
  rewrite IH. rewrite (IH _ [_]). rewrite <- app_assoc. reflexivity.
Qed.

Lemma show_aux_value fuel : forall n,
  0 <= n -> n < 2 ^ Z.of_nat fuel -> vfold 0 (show_aux fuel n []) = n.
Proof.
  induction fuel as [|f IH]; intros n Hn Hf; simpl.
  - change (2 ^ Z.of_nat 0) with 1 in Hf. unfold vfold. simpl. lia.
  - destruct (Z.ltb_spec n 10) as [H|H].
    + unfold vfold. cbn [fold_left].
      rewrite Z.mod_small by lia. rewrite dval_digit by lia. lia.
    + rewrite show_aux_app. unfold vfold. rewrite fold_left_app. fold (vfold 0 (show_aux f (n / 10) [])).
      rewrite IH.
      * cbn [fold_left]. rewrite dval_digit by (apply Z.mod_pos_bound; lia).
        rewrite (Z.div_mod n 10) at 3 by lia. reflexivity.
      * apply Z.div_pos; lia.
      * rewrite Nat2Z.inj_succ, Z.pow_succ_r in Hf by lia.
        apply Z.div_lt_upper_bound; lia.
Qed.

Lemma log2_fuel n : 0 <= n -> n < 2 ^ Z.of_nat (S (Z.to_nat (Z.log2 n))).
Proof.
  intros H. rewrite Nat2Z.inj_succ, Z2Nat.id by apply Z.log2_nonneg.
  destruct (Z.eq_dec n 0) as [->|K].
  - simpl. lia.
  - apply Z.log2_spec. lia.
Qed.

Lemma show_nonneg_value n : 0 <= n -> value (show_nonneg n) = n.
Proof.
  intros H. unfold show_nonneg. rewrite value_vfold.
  apply show_aux_value; auto using log2_fuel.
Qed.

Lemma show_aux_digits fuel : forall n,
  0 <= n -> Forall (fun c => is_digit c = true) (show_aux fuel n []).
Proof.
  induction fuel as [|f IH]; intros n H; simpl; auto.
  assert (K : is_digit (digit_char (n mod 10)) = true).
  { apply digit_char_is. apply Z.mod_pos_bound. lia. }
  destruct (n <? 10); auto.
  rewrite show_aux_app. apply Forall_app. split; auto.
  apply IH. apply Z.div_pos; lia.
Qed.

Lemma show_nonneg_digits n : 0 <= n -> Forall (fun c => is_digit c = true) (show_nonneg n).
Proof. apply show_aux_digits. Qed.

Lemma show_nonneg_cons n : exists c t, show_nonneg n = c :: t.
Proof.
  unfold show_nonneg. simpl. destruct (n <? 10); eauto.
  rewrite show_aux_app. destruct (show_aux _ _ []); simpl; eauto.
Qed.

Lemma is_digit_noblank c : is_digit c = true -> is_blank c = false.
Proof.
  unfold is_blank. intros H. destruct (Ascii.eqb c SP) eqn:E; auto.
  apply Ascii.eqb_eq in E. subst. discriminate.
Qed.
Lemma is_digit_not (c d : ascii) : is_digit c = true -> is_digit d = false -> Ascii.eqb c d = false.
Proof.
  intros H K. destruct (Ascii.eqb c d) eqn:E; auto.
  apply Ascii.eqb_eq in E. subst. congruence.
Qed.

Lemma digits_noLF t : Forall (fun c => is_digit c = true) t -> noLF t.
Proof.
  intros H K. rewrite Forall_forall in H. specialize (H _ K). discriminate.
Qed.

Lemma show_noLF z : noLF (show z).
Proof.
  unfold show. destruct (Z.ltb_spec z 0).
  - apply noLF_cons; [discriminate|]. apply digits_noLF, show_nonneg_digits. lia.
  - apply digits_noLF, show_nonneg_digits. lia.
Qed.

Lemma span_all p a b : Forall (fun c => p c = true) a ->
  (match b with [] => True | c :: _ => p c = false end) ->
  span p (a ++ b) = (a, b).
Proof.
  intros H K. induction H as [|c a Hc H IH]; simpl.
  - destruct b as [|c b]; simpl; auto. now rewrite K.
  - now rewrite Hc, IH.
Qed.

Lemma drop_blanks_app n t :
  (match t with [] => True | c :: _ => is_blank c = false end) ->
  drop_blanks (blanks n ++ t) = t.
Proof.
  intros K. unfold drop_blanks. rewrite span_all; auto.
  unfold blanks. induction n; simpl; auto.
Qed.

Lemma read_int_show n z : read_int (blanks n ++ show z) = Some z.
Proof.
  unfold read_int, show. destruct (Z.ltb_spec z 0) as [H|H].
  - rewrite drop_blanks_app by reflexivity.
    cbn [take_sign]. change (Ascii.eqb "-" "-") with true. cbv iota beta.
    rewrite <- (app_nil_r (show_nonneg (- z))).
    rewrite span_all; auto; [|apply show_nonneg_digits; lia].
    destruct (show_nonneg_cons (- z)) as (c & t & E). rewrite E at 1.
    simpl all_blank. cbv iota. rewrite show_nonneg_value by lia. f_equal. lia.
  - destruct (show_nonneg_cons z) as (c & t & E).
    assert (D := show_nonneg_digits z H).
    assert (V := show_nonneg_value z H).
    rewrite E in D, V |- *. assert (Dc : is_digit c = true) by now inversion D.
    rewrite drop_blanks_app by now apply is_digit_noblank.
    cbn [take_sign]. rewrite !(is_digit_not c) by auto. cbv iota beta.
    rewrite <- (app_nil_r (c :: t)). rewrite span_all; auto.
    simpl all_blank. cbv iota. now rewrite V.
Qed.

Lemma read_int_blanks n : read_int (blanks n) = Some 0.
Proof.
  unfold read_int. rewrite <- (app_nil_r (blanks n)). now rewrite drop_blanks_app.
Qed.

(** ** field readers *)
Lemma field_app a : forall rest, noLF a -> field (length a) (a ++ rest) = (a, rest).
Proof.
  induction a as [|c a IH]; intros rest H; simpl; auto.
  destruct (Ascii.eqb c LF) eqn:E.
  - apply eqb_LF in E. elim H. now left.
  - rewrite IH; auto. intros K. apply H. now right.
Qed.

Lemma reads_field w a : length a = w -> noLF a -> reads (rd_field w) a a 0.
Proof.
  intros <- H r ln. unfold rd_field. simpl buf. rewrite field_app by auto.
  simpl line. now rewrite Z.add_0_r.
Qed.

Lemma rj_length w t : (length t <= w)%nat -> length (rj w t) = w.
Proof. intros H. unfold rj. rewrite app_length, blanks_length. lia. Qed.
Lemma lj_length w t : (length t <= w)%nat -> length (lj w t) = w.
Proof. intros H. unfold lj. rewrite app_length, blanks_length. lia. Qed.
Lemma rj_noLF w t : noLF t -> noLF (rj w t).
Proof. intros H. apply noLF_app. split; auto using noLF_blanks. Qed.
Lemma lj_noLF w t : noLF t -> noLF (lj w t).
Proof. intros H. apply noLF_app. split; auto using noLF_blanks. Qed.
Lemma lj_id w t : length t = w -> lj w t = t.
Proof. intros <-. unfold lj. rewrite Nat.sub_diag. apply app_nil_r. Qed.

Lemma pr_int_length w z : fits w z = true -> length (pr_int w z) = w.
Proof. intros H. apply rj_length. now apply Nat.leb_le in H. Qed.
Lemma pr_int_noLF w z : noLF (pr_int w z).
Proof. apply rj_noLF, show_noLF. Qed.

Lemma reads_of_opt {A} (o : option A) a : o = Some a -> reads (of_opt o) [] a 0.
Proof. intros ->. apply reads_ret. Qed.

Lemma reads_bind_r {A B} (m : M A) (f : A -> M B) t a b k k' :
  reads m t a k -> reads (f a) [] b k' -> reads (bind m f) t b (k + k').
Proof. intros H1 H2. rewrite <- (app_nil_r t). eapply reads_bind; eauto. Qed.

Lemma reads_int w z : fits w z = true -> reads (rd_int w) (pr_int w z) z 0.
Proof.
  intros H. apply (reads_bind_r _ _ _ (pr_int w z) z 0 0).
  - apply reads_field; auto using pr_int_length, pr_int_noLF.
  - apply reads_of_opt. apply read_int_show.
Qed.

Lemma reads_int_blank w : reads (rd_int w) (blanks w) 0 0.
Proof.
  apply (reads_bind_r _ _ _ (blanks w) 0 0 0).
  - apply reads_field; auto using blanks_length, noLF_blanks.
  - apply reads_of_opt. apply read_int_blanks.
Qed.

Lemma fmt_noLF s p d E : 0 <= d -> noLF (fmt s p d E).
Proof.
  intros H. unfold fmt.
  set (P := if Z.abs E <? 10 then 7 else if Z.abs E <? 100 then 6 else 5).
  set (ds0 := show_nonneg (d * 10 ^ (P - p))).
  assert (D0 : Forall (fun c => is_digit c = true) ds0).
  { apply show_nonneg_digits. apply Z.mul_nonneg_nonneg; auto. apply Z.pow_nonneg. lia. }
  assert (D : noLF (repeat "0"%char (Z.to_nat P - length ds0) ++ ds0)).
  { apply noLF_app. split; [|now apply digits_noLF].
    intros K. apply repeat_spec in K. discriminate. }
  apply noLF_cons; [destruct s; discriminate|].
  apply noLF_app; split; [now apply noLF_firstn|].
  apply noLF_cons; [discriminate|].
  apply noLF_app; split; [now apply noLF_skipn|].
  apply noLF_cons; [destruct (E <? 0); discriminate|].
  apply digits_noLF, show_nonneg_digits. lia.
Qed.

Lemma rne_nonneg a b : 0 <= a -> 0 < b -> 0 <= rne a b.
Proof.
  intros Ha Hb. unfold rne. assert (0 <= a / b) by (apply Z.div_pos; lia).
  destruct (2 * (a mod b) <? b); auto. destruct (b <? 2 * (a mod b)); [lia|].
  destruct (Z.even (a / b)); lia.
Qed.

Lemma scn_nonneg beta a e : 0 <= a -> 0 <= beta -> 0 <= scn beta a e.
Proof.
  intros. unfold scn. destruct (e <? 0); auto.
  apply Z.mul_nonneg_nonneg; auto. now apply Z.pow_nonneg.
Qed.
Lemma scd_pos beta b e : 0 < b -> 0 < beta -> 0 < scd beta b e.
Proof.
  intros. unfold scd. destruct (Z.ltb_spec e 0); auto.
  apply Z.mul_pos_pos; auto. now apply Z.pow_pos_nonneg.
Qed.

Lemma rnd_nonneg beta p emin a b : 0 < beta -> 0 <= a -> 0 < b -> 0 <= fst (rnd beta p emin a b).
Proof.
  intros Hb Ha Hp. unfold rnd.
  destruct (rne _ _ =? beta ^ p); simpl.
  - apply Z.pow_nonneg. lia.
  - apply rne_nonneg; [apply scn_nonneg; lia|apply scd_pos; lia].
Qed.

Lemma to_dec_nonneg p m e : 0 <= m -> 0 <= fst (to_dec p m e).
Proof.
  intros H. unfold to_dec.
  assert (K := rnd_nonneg 10 p (-100000) (scn 2 m (- e)) (scd 2 1 (- e))).
  destruct (rnd _ _ _ _ _) as [d k]. simpl in *. apply K; [lia| |].
  - apply scn_nonneg; lia.
  - apply scd_pos; lia.
Qed.

Lemma write_real_noLF x : 0 <= rman x -> noLF (write_real x).
Proof.
  intros H. unfold write_real. destruct (rman x =? 0); [apply fmt_noLF; lia|].
  assert (K7 := to_dec_nonneg 7 (rman x) (rexp x) H).
  assert (K6 := to_dec_nonneg 6 (rman x) (rexp x) H).
  assert (K5 := to_dec_nonneg 5 (rman x) (rexp x) H).
  destruct (to_dec 7 _ _) as [d7 e7]. destruct (to_dec 6 _ _) as [d6 e6].
  destruct (to_dec 5 _ _) as [d5 e5]. simpl in *.
  destruct (Z.abs e7 <? 10); [now apply fmt_noLF|].
  destruct (Z.abs e6 <? 100); now apply fmt_noLF.
Qed.

Lemma to_double_man s a b x : 0 <= a -> 0 < b -> to_double s a b = Some x -> 0 <= rman x.
Proof.
  intros Ha Hb H. unfold to_double in H. destruct (a =? 0); [inversion H; simpl; lia|].
  assert (K := rnd_nonneg 2 53 (-1074) a b). destruct (rnd 2 53 (-1074) a b) as [m e].
  simpl in K. destruct (m =? 0); [inversion H; simpl; lia|].
  destruct (971 <? e); inversion H; simpl. apply K; lia.
Qed.

Lemma dval_nonneg c : 0 <= dval c.
Proof.
  unfold dval, digit_val. destruct (_ && _) eqn:E; [|lia].
  apply andb_prop in E. destruct E as [E _]. apply Nat.leb_le in E. lia.
Qed.

Lemma value_nonneg ds : 0 <= value ds.
Proof.
  unfold value. assert (G : forall a, 0 <= a -> 0 <= fold_left (fun a c => 10 * a + dval c) ds a).
  { induction ds as [|c ds IH]; intros a Ha; simpl; auto. apply IH.
    assert (H := dval_nonneg c). lia. }
  apply G. lia.
Qed.

Lemma read_real_man t x : read_real t = Some x -> 0 <= rman x.
Proof.
  unfold read_real. destruct (drop_blanks t) as [|c0 t1]; [intros H; inversion H; simpl; lia|].
  destruct (take_sign _) as [neg t2]. destruct (span is_digit t2) as [ip t3].
  destruct (match t3 with [] => _ | _ => _ end) as [fp t4].
  destruct (ip ++ fp) as [|c1 ds] eqn:E; [discriminate|].
  destruct (read_exp t4) as [[k t5]|]; [|discriminate].
  destruct (all_blank t5); [|discriminate].
  unfold dec_double. intros H.
  assert (0 <= value (c1 :: ds)) by apply value_nonneg.
  destruct (Z.ltb_spec (k - Z.of_nat (length fp)) 0).
  - eapply to_double_man; [| |exact H]; auto. apply Z.pow_pos_nonneg; lia.
  - eapply to_double_man; [| |exact H]; [|lia]. apply Z.mul_nonneg_nonneg; auto.
    apply Z.pow_nonneg. lia.
Qed.

Lemma okr_noLF x : okr x -> noLF (write_real x).
Proof. intros [_ H]. apply write_real_noLF. eapply read_real_man; eauto. Qed.

Lemma reads_real x : okr x -> reads rd_real (write_real x) x 0.
Proof.
  intros H. apply (reads_bind_r _ _ _ (write_real x) x 0 0).
  - apply reads_field; [apply H|now apply okr_noLF].
  - apply reads_of_opt. apply H.
Qed.

Lemma read_real_blanks n : read_real (blanks n) = Some rzero.
Proof.
  unfold read_real. rewrite <- (app_nil_r (blanks n)). now rewrite drop_blanks_app.
Qed.

Lemma reads_real_blank : reads rd_real (blanks 11) rzero 0.
Proof.
  apply (reads_bind_r _ _ _ (blanks 11) rzero 0 0).
  - apply reads_field; auto using blanks_length, noLF_blanks.
  - apply reads_of_opt. apply read_real_blanks.
Qed.

Lemma reads_chars w t : length t = w -> noLF t -> reads (rd_chars w) t t 0.
Proof.
  intros H K. apply (reads_bind_r _ _ _ t t 0 0).
  - now apply reads_field.
  - rewrite lj_id by auto. apply reads_ret.
Qed.

Lemma reads_eol a : noLF a -> reads rd_eol (a ++ [LF]) tt 0.
Proof.
  intros H r ln. unfold rd_eol. simpl buf. rewrite <- app_assoc. simpl app.
  rewrite next_line_app by auto. simpl. now rewrite Z.add_0_r.
Qed.

(** ** reading within a line

    [inl o l b s]: the state [s] is at column [o] of line [l], and [b] follows
    that line *)
Definition inl (o : nat) (l b : text) (s : st) : Prop :=
  next_line (buf s) = (skipn o l, b).

Lemma field_next_line w : forall t l b,
  next_line t = (l, b) ->
  fst (field w t) = firstn w l /\ next_line (snd (field w t)) = (skipn w l, b).
Proof.
  induction w as [|w IH]; intros t l b H.
  - simpl. auto.
  - destruct t as [|c t]; simpl in H |- *.
    + inversion H; subst. auto.
    + destruct (Ascii.eqb c LF) eqn:E.
      * inversion H; subst. simpl. rewrite E. auto.
      * destruct (next_line t) as [l' r'] eqn:N. inversion H; subst.
        destruct (IH _ _ _ N) as [H1 H2].
        destruct (field w t) as [fa fb]. simpl in *. subst. auto.
Qed.

Lemma rd_field_inl o l b s w :
  inl o l b s ->
  exists s', rd_field w s = Ok (col o w l) s' /\ inl (o + w) l b s' /\ line s' = line s.
Proof.
  unfold inl. intros H. destruct (field_next_line w _ _ _ H) as [H1 H2].
  unfold rd_field. destruct (field w (buf s)) as [fa fb]. simpl in *.
  exists (mkst fb (line s)). split; [|split]; simpl; auto.
  - now rewrite H1.
  - rewrite H2. now rewrite <- skipn_add.
Qed.

Lemma rd_int_inl o l b s w z s' :
  inl o l b s -> rd_int w s = Ok z s' ->
  read_int (col o w l) = Some z /\ inl (o + w) l b s' /\ line s' = line s.
Proof.
  intros H E. destruct (rd_field_inl o l b s w H) as (s1 & E1 & I1 & L1).
  unfold rd_int, bind in E. rewrite E1 in E.
  destruct (read_int (col o w l)) as [z'|]; inversion E; subst; auto.
Qed.

Lemma rd_real_inl o l b s z s' :
  inl o l b s -> rd_real s = Ok z s' ->
  read_real (col o 11 l) = Some z /\ inl (o + 11) l b s' /\ line s' = line s.
Proof.
  intros H E. destruct (rd_field_inl o l b s 11 H) as (s1 & E1 & I1 & L1).
  unfold rd_real, bind in E. rewrite E1 in E.
  destruct (read_real (col o 11 l)) as [z'|]; inversion E; subst; auto.
Qed.

Lemma rd_chars_inl o l b s w z s' :
  inl o l b s -> rd_chars w s = Ok z s' ->
  z = lj w (col o w l) /\ inl (o + w) l b s' /\ line s' = line s.
Proof.
  intros H E. destruct (rd_field_inl o l b s w H) as (s1 & E1 & I1 & L1).
  unfold rd_chars, bind, ret in E. rewrite E1 in E. inversion E; subst. auto.
Qed.

Lemma rd_eol_inl o l b s u s' :
  inl o l b s -> rd_eol s = Ok u s' -> buf s' = b /\ line s' = line s.
Proof. unfold inl, rd_eol. intros H E. rewrite H in E. inversion E; subst. auto. Qed.

Lemma inl_start s l b : next_line (buf s) = (l, b) -> inl 0 l b s.
Proof. auto. Qed.

Lemma inl_any s : exists l b, next_line (buf s) = (l, b) /\ inl 0 l b s.
Proof. unfold inl. destruct (next_line (buf s)) as [l b]. exists l, b. auto. Qed.

(** ** only_std *)
Lemma only_std_field w : only_std (rd_field w).
Proof. intros s. unfold rd_field. now destruct (field w (buf s)). Qed.
Lemma only_std_of_opt {A} (o : option A) : only_std (of_opt o).
Proof. destruct o; [apply only_std_ret|now apply only_std_throw]. Qed.
Lemma only_std_int w : only_std (rd_int w).
Proof. apply only_std_bind; [apply only_std_field|intros; apply only_std_of_opt]. Qed.
Lemma only_std_real : only_std rd_real.
Proof. apply only_std_bind; [apply only_std_field|intros; apply only_std_of_opt]. Qed.
Lemma only_std_chars w : only_std (rd_chars w).
Proof. apply only_std_bind; [apply only_std_field|intros; apply only_std_ret]. Qed.
Lemma only_std_eol : only_std rd_eol.
Proof. intros s. exact I. Qed.

(** small integers fit *)
Lemma show_aux_length fuel : forall n w,
  0 <= n -> (1 <= w)%nat -> n < 10 ^ Z.of_nat w -> (length (show_aux fuel n []) <= w)%nat.
Proof.
  induction fuel as [|f IH]; intros n w Hn Hw H; simpl; [lia|].
  destruct (Z.ltb_spec n 10); simpl; [lia|].
  rewrite show_aux_app, app_length. simpl.
  assert (w <> 1)%nat. { intros ->. change (10 ^ Z.of_nat 1) with 10 in H. lia. }
  assert (length (show_aux f (n / 10) []) <= w - 1)%nat; [|lia].
  apply IH; [apply Z.div_pos; lia|lia|].
  apply Z.div_lt_upper_bound; [lia|].
  replace (Z.of_nat w) with (Z.succ (Z.of_nat (w - 1))) in H by lia.
  rewrite Z.pow_succ_r in H by lia. lia.
Qed.

Lemma fits_nonneg w z : (1 <= w)%nat -> 0 <= z < 10 ^ Z.of_nat w -> fits w z = true.
Proof.
  intros Hw H. unfold fits. apply Nat.leb_le. unfold show.
  destruct (Z.ltb_spec z 0); [lia|]. apply show_aux_length; lia.
Qed.

Lemma fits_neg w z : (2 <= w)%nat -> - 10 ^ (Z.of_nat w - 1) < z < 0 -> fits w z = true.
Proof.
  intros Hw H. unfold fits. apply Nat.leb_le. unfold show.
  destruct (Z.ltb_spec z 0); [|lia]. simpl.
  assert (length (show_nonneg (- z)) <= w - 1)%nat; [|lia].
  apply show_aux_length; [lia|lia|].
  replace (Z.of_nat (w - 1)) with (Z.of_nat w - 1) by lia. lia.
Qed.

Lemma fits0 w : (1 <= w)%nat -> fits w 0 = true.
Proof.
  intros H. apply fits_nonneg; auto. split; [lia|]. apply Z.pow_pos_nonneg; lia.
Qed.
