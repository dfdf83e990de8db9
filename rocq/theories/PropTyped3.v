(** PropTyped3.v -- reading typed files and materials ends (C44). *)
From Coq Require Import ZifyBool ZifyNat.
From Verif Require Import Base Disco DiscoProofs Records RecordProofs RecordRT RecordSound Layout
  RealRound RealProofs Spec Normal LineFacts PropSec451 Sections SecSpec Codec SectionProofs
  Tree TreeSpec TreeProofs TreeGrammar TreeMaps PropTree PropTree2 Typed TypedSpec TypedProofs PropTyped PropTyped2.
Open Scope Z_scope.

(** the number in the first field of the line can be converted to an int, and the
    line is not a SEND of file 8 *)
Definition fine_div (d : sdiv) : Prop :=
  int32 (round_int (c1 (sbase d))) /\ ~ (smf d = 8 /\ smt d = 0).
(** every line of the text that can be read as a HEAD, with the text that follows it,
    satisfies P *)
Definition every_div (P : sdiv -> text -> Prop) (t : text) : Prop :=
  forall n d, division_line (nth_line t n) d -> P d (drop_lines (S n) t).
Definition fine (t : text) : Prop := every_div (fun d _ => fine_div d) t.

Lemma nth_drop k : forall t n, nth_line (drop_lines k t) n = nth_line t (k + n).
Proof. induction k as [|k IH]; intros t n; [reflexivity|]. cbn [drop_lines Nat.add nth_line]. apply IH. Qed.
Lemma drop_drop k : forall t n, drop_lines n (drop_lines k t) = drop_lines (k + n) t.
Proof. induction k as [|k IH]; intros t n; [reflexivity|]. cbn [drop_lines Nat.add]. apply IH. Qed.
Lemma fine_drop P t k : every_div P t -> every_div P (drop_lines k t).
Proof. intros H n d D. rewrite nth_drop in D. rewrite drop_drop, <- plus_n_Sm. exact (H _ _ D). Qed.
Lemma drop_le k : forall t, (length (drop_lines k t) <= length t)%nat.
Proof.
  induction k as [|k IH]; intros t; [reflexivity|]. cbn [drop_lines]. destruct (next_line t) as [l b] eqn:E. cbn [snd].
  apply next_line_le in E. specialize (IH b). lia.
Qed.
Lemma sdiv_here t ln d s' : rd_sdiv (mkst t ln) = Ok d s' -> division_line (nth_line t 0) d /\ buf s' = drop_lines 1 t.
Proof. intros E. apply sdiv_inv in E. destruct E as (l & b & N & D & ->). cbn [nth_line drop_lines buf]. rewrite N. auto. Qed.
Definition ends {A} (r : res A) (t : text) : Prop :=
  never_other r /\ forall x s', r = Ok x s' -> exists n, buf s' = drop_lines n t.
Lemma loop_ends {A} (P : sdiv -> text -> Prop) stop (bd : sdiv -> M A) :
  (forall d t ln, every_div P t -> P d t -> stop d = false -> ends (bd d (mkst t ln)) t) ->
  (stop zero_div = true \/ forall s, exists s', bd zero_div s = Err EStd s') ->
  forall fuel d t ln, every_div P t -> P d t ->
    (length t + 2 <= fuel \/ (d = zero_div /\ t = [] /\ 1 <= fuel))%nat -> ends (div_loop stop bd fuel d (mkst t ln)) t.
Proof.
  intros Hb Hz. induction fuel as [|f IH]; intros d t ln Ft Fd Hf; [lia|]. cbn [div_loop].
  destruct (stop d) eqn:Sd. { split; [exact Logic.I|]. intros x s' E. injection E as _ <-. exists 0%nat. reflexivity. }
  destruct Hf as [Hf|(-> & -> & _)].
  2:{ destruct Hz as [Hz|Hz]; [congruence|]. destruct (Hz (mkst [] ln)) as (s' & Es). unfold bind. rewrite Es. split; [exact eq_refl|discriminate]. }
  destruct (Hb d t ln Ft Fd Sd) as (N & C). unfold bind at 1. destruct (bd d (mkst t ln)) as [x [t1 ln1]|e s1|]; [|split; [exact N|discriminate]|destruct N].
  destruct (C x _ eq_refl) as (n & En). cbn [buf] in En. unfold bind at 1.
  assert (Sx := only_std_sdiv (mkst t1 ln1)). destruct (rd_sdiv (mkst t1 ln1)) as [d' [t2 ln2]|e s2|] eqn:E2; [|split; [exact Sx|discriminate]|destruct Sx].
  assert (Ft1 : every_div P t1) by (subst t1; now apply fine_drop).
  destruct (sdiv_here _ _ _ _ E2) as (D2 & Eb). cbn [buf] in Eb. assert (Fd' : P d' t2) by (rewrite Eb; exact (Ft1 _ _ D2)).
  assert (Ft2 : every_div P t2) by (rewrite Eb; now apply fine_drop).
  assert (L1 : (length t1 <= length t)%nat) by (subst t1; apply drop_le).
  assert (Hf' : (length t2 + 2 <= f \/ (d' = zero_div /\ t2 = [] /\ 1 <= f))%nat).
  { destruct t1 as [|c t1'].
    - right. rewrite end_div in E2. injection E2 as <- <- _. split; [reflexivity|]. split; [reflexivity|]. lia.
    - left. assert (length t2 < length (c :: t1'))%nat by (apply div_at_inv in E2; apply div_at_lt in E2; [exact E2|discriminate]). cbn [length] in *. lia. }
  destruct (IH d' t2 ln2 Ft2 Fd' Hf') as (N3 & C3). unfold bind.
  destruct (div_loop stop bd f d' (mkst t2 ln2)) as [r s3|e s3|]; [|split; [exact N3|discriminate]|destruct N3].
  split; [exact Logic.I|]. intros y s' E. injection E as _ <-. destruct (C3 r _ eq_refl) as (m & Em). exists (n + (1 + m))%nat.
  rewrite <- !drop_drop, <- En, <- Eb. exact Em.
Qed.

Section Classes.
  Variable code : Type.
  Variable body : code -> Type.
  Variable kind : forall c, skind (body c).
  Variable class_of : Z -> Z -> option code.
  Variable rep inv : forall c, body c -> Prop.
  Hypothesis T : table_ok code body kind class_of rep inv.
  (** [guard mf d t] : reading a section of file [mf] with HEAD [d] from [t] is not undefined *)
  Variable guard : Z -> sdiv -> text -> Prop.
  Hypothesis Safe : forall mf d c mat s, class_of mf (smt d) = Some c -> guard mf d (buf s) ->
    int32 (round_int (c1 (sbase d))) -> never_other (Sections.rd_section (kind c) d mat s).
  (** ... and whole lines are read *)
  Hypothesis Lines : forall mf d c mat s x s', class_of mf (smt d) = Some c -> guard mf d (buf s) ->
    Sections.rd_section (kind c) d mat s = Ok x s' -> exists n, buf s' = drop_lines n (buf s).

  Lemma any_ends mf d t ln : fine_div d -> guard mf d t -> ends (rd_any kind class_of mf d (mkst t ln)) t.
  Proof.
    intros (F & _) Gd. unfold rd_any. destruct (class_of mf (smt d)) as [c|] eqn:Ec; [|split; [exact eq_refl|discriminate]].
    assert (N := Safe mf d c (smat d) (mkst t ln) Ec Gd F). unfold bind. destruct (Sections.rd_section (kind c) d (smat d) (mkst t ln)) as [x s1|e s1|] eqn:E.
    - split; [exact Logic.I|]. intros y s' Q. injection Q as _ <-.
      exact (Lines mf d c _ (mkst t ln) _ _ Ec Gd E).
    - split; [exact N|discriminate].
    - destruct N.
  Qed.
  Lemma any_zero mf s : exists s', rd_any kind class_of mf zero_div s = Err EStd s'.
  Proof. unfold rd_any. destruct (class_of mf (smt zero_div)) as [c|]; eexists; reflexivity. Qed.
  Lemma skip_mt_ends mt fuel : mt <> 0 -> forall t x ln, ((length t + 2 <= fuel)%nat \/ (x <> mt /\ (1 <= fuel)%nat)) -> ends (skip_mt mt fuel x (mkst t ln)) t.
  Proof.
    intros Hmt. induction fuel as [|f IH]; intros t x ln Hf; [lia|]. cbn [skip_mt]. destruct (Z.eqb_spec x mt) as [->|Hx].
    2:{ split; [exact Logic.I|]. intros y s' E. injection E as _ <-. exists 0%nat. reflexivity. }
    destruct Hf as [Hf|[Hf _]]; [|congruence].
    unfold bind. assert (Sx := only_std_skip (mkst t ln)). destruct (rd_skip (mkst t ln)) as [[[a b] c] s1|e s1|] eqn:E; [|split; [exact Sx|discriminate]|destruct Sx].
    apply skip_inv in E. destruct E as (l & r & N & C & ->). destruct t as [|ch t].
    - cbn in N. injection N as <- <-. destruct C as (_ & _ & C). rewrite col_nil in C. cbn in C. injection C as <-.
      destruct f as [|f]; [cbn in Hf; lia|]. cbn [skip_mt]. replace (0 =? mt) with false by lia. split; [exact Logic.I|]. intros y s' Q. injection Q as _ <-. exists 0%nat. reflexivity.
    - assert (L := next_line_lt _ _ _ N ltac:(discriminate)). destruct (IH r c (ln + 1)) as (Nv & Cs). { left. cbn [length] in *. lia. }
      split; [exact Nv|]. intros y s' Q. destruct (Cs _ _ Q) as (n & En). exists (Datatypes.S n). cbn [drop_lines]. now rewrite N.
  Qed.
  Lemma skip_mf_ends fuel : forall t x ln, ((length t + 2 <= fuel)%nat \/ (x <> 30 /\ (1 <= fuel)%nat)) -> ends (skip_mf 30 fuel x (mkst t ln)) t.
  Proof.
    induction fuel as [|f IH]; intros t x ln Hf; [lia|]. cbn [skip_mf]. destruct (Z.eqb_spec x 30) as [->|Hx].
    2:{ split; [exact Logic.I|]. intros y s' E. injection E as _ <-. exists 0%nat. reflexivity. }
    destruct Hf as [Hf|[Hf _]]; [|congruence].
    unfold bind. assert (Sx := only_std_skip (mkst t ln)). destruct (rd_skip (mkst t ln)) as [[[a b] c] s1|e s1|] eqn:E; [|split; [exact Sx|discriminate]|destruct Sx].
    apply skip_inv in E. destruct E as (l & r & N & C & ->). destruct t as [|ch t].
    - cbn in N. injection N as <- <-. destruct C as (_ & C & _). rewrite col_nil in C. cbn in C. injection C as <-.
      destruct f as [|f]; [cbn in Hf; lia|]. cbn [skip_mf]. split; [exact Logic.I|]. intros y s' Q. injection Q as _ <-. exists 0%nat. reflexivity.
    - assert (L := next_line_lt _ _ _ N ltac:(discriminate)). destruct (IH r b (ln + 1)) as (Nv & Cs). { left. cbn [length] in *. lia. }
      split; [exact Nv|]. intros y s' Q. destruct (Cs _ _ Q) as (n & En). exists (Datatypes.S n). cbn [drop_lines]. now rewrite N.
  Qed.
  Lemma skip_8_ends fuel : forall d t ln, fine t -> fine_div d -> ((length t + 2 <= fuel)%nat \/ (smf d <> 8 /\ (1 <= fuel)%nat)) ->
    ends (skip_8 fuel d (mkst t ln)) t.
  Proof.
    induction fuel as [|f IH]; intros d t ln Ft Fd Hf; [lia|]. cbn [skip_8]. destruct (Z.eqb_spec (smf d) 8) as [E8|Hx].
    2:{ split; [exact Logic.I|]. intros y s' E. injection E as _ <-. exists 0%nat. reflexivity. }
    destruct Hf as [Hf|[Hf _]]; [|congruence]. unfold get_pos, bind at 1. cbn [buf].
    assert (Mt : smt d <> 0) by (destruct Fd as (_ & Fd); tauto).
    destruct (skip_mt_ends (smt d) (Datatypes.S (Datatypes.S (length t))) Mt t (smt d) ln ltac:(lia)) as (N1 & C1).
    unfold bind at 1. destruct (skip_mt (smt d) (Datatypes.S (Datatypes.S (length t))) (smt d) (mkst t ln)) as [u [t1 ln1]|e s1|]; [|split; [exact N1|discriminate]|destruct N1].
    destruct (C1 _ _ eq_refl) as (n & En). cbn [buf] in En.
    unfold bind. assert (Sx := only_std_sdiv (mkst t1 ln1)). destruct (rd_sdiv (mkst t1 ln1)) as [d' [t2 ln2]|e s2|] eqn:E2; [|split; [exact Sx|discriminate]|destruct Sx].
    assert (Ft1 : fine t1) by (subst t1; now apply fine_drop).
    destruct (sdiv_here _ _ _ _ E2) as (D2 & Eb). cbn [buf] in Eb. assert (Fd' : fine_div d') by exact (Ft1 _ _ D2).
    assert (Ft2 : fine t2) by (rewrite Eb; now apply fine_drop).
    assert (L1 : (length t1 <= length t)%nat) by (subst t1; apply drop_le).
    assert (Hf' : (length t2 + 2 <= f)%nat \/ (smf d' <> 8 /\ (1 <= f)%nat)).
    { destruct t1 as [|c t1'].
      - right. rewrite end_div in E2. injection E2 as <- <- _. split; [discriminate|]. lia.
      - left. assert (length t2 < length (c :: t1'))%nat by (apply div_at_inv in E2; apply div_at_lt in E2; [exact E2|discriminate]). cbn [length] in *. lia. }
    destruct (IH d' t2 ln2 Ft2 Fd' Hf') as (N3 & C3). split; [exact N3|]. intros y s' Q. destruct (C3 _ _ Q) as (m & Em).
    exists (n + (1 + m))%nat. rewrite <- !drop_drop, <- En, <- Eb. exact Em.
  Qed.
  Lemma ends_on_err {A} (m : M A) s t : ends (m s) t -> ends (on_err m h_std s) t.
  Proof. intros (N & C). split; [now apply never_on_err|]. intros x s' E. apply on_err_ok in E. eauto. Qed.
  Lemma fill_std {A} (key : A -> Z) l : fill key l = Throw EStd \/ exists m, fill key l = Val m.
  Proof.
    unfold fill. generalize (@nil (Z * A)). induction l as [|a l IH]; intros acc; cbn [fill_from]; [eauto|]. destruct (mhas (key a) acc); [auto|apply IH].
  Qed.
  Lemma file_ends mf d t ln : fine t -> fine_div d -> every_div (guard mf) t -> guard mf d t -> ends (rd_yfile kind class_of mf d (mkst t ln)) t.
  Proof.
    intros Ft Fd Gt Gd. unfold rd_yfile. destruct (mf =? 30) eqn:E30; [|destruct ((mf =? 8) && negb ((smt d =? 454) || (smt d =? 457) || (smt d =? 459))) eqn:E8].
    - destruct (smf d =? 30).
      + unfold get_pos, bind. cbn [buf]. destruct (skip_mf_ends (Datatypes.S (Datatypes.S (length t))) t (smf d) ln ltac:(lia)) as (N & C).
        destruct (skip_mf 30 _ _ _) as [u s1|e s1|]; [|split; [exact N|discriminate]|destruct N].
        split; [exact Logic.I|]. intros x s' E. injection E as _ <-. eauto.
      + split; [exact Logic.I|]. intros x s' E. injection E as _ <-. exists 0%nat. reflexivity.
    - apply ends_on_err. unfold get_pos, bind at 1. cbn [buf].
      destruct (skip_8_ends (Datatypes.S (Datatypes.S (length t))) d t ln Ft Fd ltac:(lia)) as (N & C). unfold bind.
      destruct (skip_8 _ _ _) as [d' s1|e s1|]; [|split; [exact N|discriminate]|destruct N].
      unfold require. destruct (verify_fend d'); [|split; [exact eq_refl|discriminate]]. split; [exact Logic.I|]. intros x s' E. injection E as _ <-. eauto.
    - unfold rd_yfile_base. apply ends_on_err. unfold get_pos, bind at 1. cbn [buf].
      destruct (loop_ends (fun d t => fine_div d /\ guard mf d t) is_fend (rd_any kind class_of mf)) with (fuel := Datatypes.S (Datatypes.S (length t))) (d := d) (t := t) (ln := ln) as (N & C); auto.
      { intros d0 t0 ln0 _ (F0 & G0) _. now apply any_ends. } { right. intros s. apply any_zero. } { intros n d0 D0. exact (conj (Ft _ _ D0) (Gt _ _ D0)). } { lia. }
      unfold bind. destruct (div_loop _ _ _ _ _) as [l s1|e s1|]; [|split; [exact N|discriminate]|destruct N].
      destruct (fill_std y_mt l) as [->|(m & ->)]; [split; [exact eq_refl|discriminate]|]. split; [exact Logic.I|]. intros x s' E. injection E as _ <-. eauto.
  Qed.
  (** Reading a typed file or material from any text ends: it succeeds or throws a
      std::exception, and a success has consumed whole lines, provided the first
      field of no line overflows an int and no SEND of file 8 is taken for a HEAD. *)
  Theorem C44_file_ends : forall mf t ln, fine t -> every_div (guard mf) t ->
    never_other (parse_yfile kind class_of mf (mkst t ln))
    /\ forall f s, parse_yfile kind class_of mf (mkst t ln) = Ok f s -> exists n, buf s = drop_lines n t.
  Proof.
    intros mf t ln Ft Gt. unfold parse_yfile, bind. assert (Sx := only_std_sdiv (mkst t ln)).
    destruct (rd_sdiv (mkst t ln)) as [d [t1 ln1]|e s1|] eqn:E; [|split; [exact Sx|discriminate]|destruct Sx].
    destruct (sdiv_here _ _ _ _ E) as (D & Eb). cbn [buf] in Eb.
    destruct (file_ends mf d t1 ln1) as (N & C); [rewrite Eb; now apply fine_drop|exact (Ft _ _ D)|rewrite Eb; now apply fine_drop|rewrite Eb; exact (Gt _ _ D)|].
    split; [exact N|]. intros f s Q. destruct (C _ _ Q) as (n & En). exists (1 + n)%nat. rewrite <- drop_drop, <- Eb. exact En.
  Qed.
  Theorem C44_material_ends : forall t ln, fine t -> every_div (fun d0 _ => every_div (guard (smf d0)) t) t ->
    never_other (parse_ymat kind class_of (mkst t ln))
    /\ forall m s, parse_ymat kind class_of (mkst t ln) = Ok m s -> exists n, buf s = drop_lines n t.
  Proof.
    intros t ln Ft Gt. unfold parse_ymat, bind. assert (Sx := only_std_sdiv (mkst t ln)).
    destruct (rd_sdiv (mkst t ln)) as [d [t1 ln1]|e s1|] eqn:E; [|split; [exact Sx|discriminate]|destruct Sx].
    destruct (sdiv_here _ _ _ _ E) as (D & Eb). cbn [buf] in Eb.
    assert (All : every_div (fun d u => fine_div d /\ every_div (guard (smf d)) t /\ (forall mf, (exists n d0, division_line (nth_line t n) d0 /\ smf d0 = mf) -> guard mf d u) /\ exists n d0, division_line (nth_line t n) d0 /\ smf d0 = smf d) t).
    { intros n d0 D0. split; [exact (Ft _ _ D0)|]. split; [exact (Gt _ _ D0)|]. split; [|eauto].
      intros mf (n1 & d1 & D1 & <-). exact (Gt _ _ D1 _ _ D0). }
    assert (K : ends (rd_ymat kind class_of d (mkst t1 ln1)) t1).
    { unfold rd_ymat. apply ends_on_err. unfold get_pos, bind at 1. cbn [buf].
      destruct (loop_ends (fun d u => fine_div d /\ every_div (guard (smf d)) t /\ (forall mf, (exists n d0, division_line (nth_line t n) d0 /\ smf d0 = mf) -> guard mf d u) /\ exists n d0, division_line (nth_line t n) d0 /\ smf d0 = smf d) is_mend (rd_any_file kind class_of)) with (fuel := Datatypes.S (Datatypes.S (length t1))) (d := d) (t := t1) (ln := ln1) as (N & C).
      - intros d0 t0 ln0 Ft0 (F0 & K0 & G0 & U0) _. unfold rd_any_file. destruct (known_mf (smf d0)); [|split; [exact eq_refl|discriminate]].
        apply file_ends; [intros n d1 D1; exact (proj1 (Ft0 _ _ D1))|exact F0| |apply G0; exact U0].
        intros n d1 D1. destruct (Ft0 _ _ D1) as (_ & _ & G1 & _). apply G1, U0.
      - left. reflexivity.
      - rewrite Eb. apply fine_drop. exact All.
      - rewrite Eb. exact (All _ _ D).
      - lia.
      - unfold bind. destruct (div_loop _ _ _ _ _) as [l s1|e s1|]; [|split; [exact N|discriminate]|destruct N].
        destruct (fill_std yf_mf l) as [->|(m & ->)]; [split; [exact eq_refl|discriminate]|]. split; [exact Logic.I|]. intros x s' Q. injection Q as _ <-. eauto. }
    destruct K as (N & C). split; [exact N|]. intros f s Q. destruct (C _ _ Q) as (n & En). exists (1 + n)%nat. rewrite <- drop_drop, <- Eb. exact En.
  Qed.
  Lemma mf8_spin : forall t ln fuel, (forall n mat mf mt, carries mat mf mt (nth_line t n) -> mt = 0) ->
    (forall n, exists mat mf mt, carries mat mf mt (nth_line t n)) ->
    skip_mt 0 fuel 0 (mkst t ln) = UB.
  Proof.
    intros t ln fuel. revert t ln. induction fuel as [|f IH]; intros t ln H K; [reflexivity|]. cbn [skip_mt]. change (0 =? 0) with true. cbv iota.
    unfold bind. destruct (next_line t) as [l r] eqn:N. destruct (K 0%nat) as (a & b & c & C). cbn [nth_line] in C. rewrite N in C. cbn [fst] in C.
    rewrite (skip_fwd t l r ln a b c N C). assert (c = 0). { apply (H 0%nat a b c). cbn [nth_line]. rewrite N. exact C. } subst c.
    apply IH; intros n; [intros mat mf mt Q; apply (H (Datatypes.S n) mat mf mt)|destruct (K (Datatypes.S n)) as (a' & b' & c' & C'); exists a', b', c'];
      cbn [nth_line] in *; rewrite N in *; assumption.
  Qed.
  (** A SEND of file 8 where a HEAD is expected: if no later line has MT /= 0 the
      reader does not end, however long it is run. *)
  Theorem C44_mf8_refuted : forall d t ln, smf d = 8 -> smt d = 0 ->
    (forall n mat mf mt, carries mat mf mt (nth_line t n) -> mt = 0) ->
    (forall n, exists mat mf mt, carries mat mf mt (nth_line t n)) ->
    rd_yfile kind class_of 8 d (mkst t ln) = UB /\ forall fuel, skip_8 fuel d (mkst t ln) = UB.
  Proof.
    intros d t ln H8 H0 H K.
    assert (S : forall fuel, skip_8 fuel d (mkst t ln) = UB).
    { intros fuel. destruct fuel as [|f]; [reflexivity|]. cbn [skip_8]. rewrite H8. change (8 =? 8) with true. cbv iota. unfold get_pos, bind. cbn [buf].
      rewrite H0, mf8_spin by assumption. reflexivity. }
    split; [|exact S]. unfold rd_yfile. change (8 =? 30) with false. change (8 =? 8) with true. cbv iota. rewrite H0. change (true && negb ((0 =? 454) || (0 =? 457) || (0 =? 459))) with true. cbv iota.
    unfold on_err, get_pos, bind. cbn [buf]. rewrite S. reflexivity.
  Qed.
End Classes.
