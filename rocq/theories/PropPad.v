(** PropPad.v -- C75: blanks at the end of a line, and how MAT, MF and MT are written, do not matter;
    clean() does not change what a section says. *)
From Coq Require Import ZifyBool ZifyNat.
From Verif Require Import Base Disco Records Layout SecKit Sections Tree Typed Classes PropClasses Spec LineFacts TreeSpec PropClean Keeps PropCut2 PropTrunc Sec451 Sec32Local TreeGrammar ExKit PropRecords.
From Verif Require PropCols KeepsTree.
Open Scope Z_scope.

(** [same_fields l l']: the first 66 columns of the lines agree when blanks are added to the
    shorter, and columns 67-70, 71-72, 73-75 read as the same numbers (or as none) *)
Definition same_fields (l l' : text) : Prop :=
  lj 66 (firstn 66 l) = lj 66 (firstn 66 l') /\ read_int (col 66 4 l) = read_int (col 66 4 l')
  /\ read_int (col 70 2 l) = read_int (col 70 2 l') /\ read_int (col 72 3 l) = read_int (col 72 3 l').

(** ** Blanks behind a field *)
Lemma blanks_S n : blanks (S n) = SP :: blanks n. Proof. reflexivity. Qed.
Lemma span_pad p t n : p SP = false -> span p (t ++ blanks n) = (fst (span p t), snd (span p t) ++ blanks n).
Proof.
  intros H. induction t as [|a t IH]; cbn [app span].
  - destruct n as [|n]; [reflexivity|]. rewrite blanks_S. cbn [span]. rewrite H. reflexivity.
  - destruct (p a); [|reflexivity]. rewrite IH. destruct (span p t). reflexivity.
Qed.
Lemma blank_run n : drop_blanks (blanks n) = [].
Proof. unfold drop_blanks. induction n as [|n IH]; [reflexivity|]. rewrite blanks_S. cbn [span]. change (is_blank SP) with true. cbv iota. destruct (span is_blank (blanks n)). exact IH. Qed.
Lemma drop_pad t n : drop_blanks (t ++ blanks n) = match drop_blanks t with [] => [] | u => u ++ blanks n end.
Proof.
  induction t as [|a t IH]; cbn [app].
  - rewrite blank_run. reflexivity.
  - unfold drop_blanks in *. cbn [span]. destruct (is_blank a); [|reflexivity].
    destruct (span is_blank (t ++ blanks n)) as [x y], (span is_blank t) as [x' y']. exact IH.
Qed.
Lemma all_pad t n : all_blank (t ++ blanks n) = all_blank t.
Proof.
  unfold all_blank. rewrite forallb_app. replace (forallb is_blank (blanks n)) with true; [apply andb_true_r|].
  symmetry. induction n as [|n IH]; [reflexivity|]. rewrite blanks_S. exact IH.
Qed.
Lemma sign_pad t n : take_sign (t ++ blanks n) = (fst (take_sign t), snd (take_sign t) ++ blanks n).
Proof.
  destruct t as [|a t]; [destruct n; reflexivity|]. cbn [app take_sign]. destruct (Ascii.eqb a "-"); [reflexivity|]. destruct (Ascii.eqb a "+"); reflexivity.
Qed.
Lemma int_pad t n : read_int (t ++ blanks n) = read_int t.
Proof.
  unfold read_int. rewrite drop_pad. destruct (drop_blanks t) as [|a u] eqn:E; [reflexivity|]. set (w := a :: u).
  assert (K : exists b v, w ++ blanks n = b :: v) by (exists a, (u ++ blanks n); reflexivity).
  destruct K as (b & v & K). rewrite K. rewrite <- K, sign_pad. destruct (take_sign w) as [neg t2]. cbn [fst snd]. rewrite span_pad by reflexivity.
  destruct (span is_digit t2) as [ds t3]. cbn [fst snd]. rewrite all_pad. reflexivity.
Qed.
Lemma exp_pad t n : match read_exp t, read_exp (t ++ blanks n) with
  | Some (k, u), Some (k', u') => k = k' /\ all_blank u = all_blank u'
  | None, None => True
  | _, _ => False
  end.
Proof.
  assert (D : forall t, match (let (neg, t1) := take_sign t in let (ds, t2) := span is_digit t1 in match ds with [] => None | _ => Some (if neg then - value ds else value ds, t2) end),
      (let (neg, t1) := take_sign (t ++ blanks n) in let (ds, t2) := span is_digit t1 in match ds with [] => None | _ => Some (if neg then - value ds else value ds, t2) end) with
    | Some (k, u), Some (k', u') => k = k' /\ all_blank u = all_blank u' | None, None => True | _, _ => False end).
  { intros s. rewrite sign_pad. destruct (take_sign s) as [neg t1]. cbn [fst snd]. rewrite span_pad by reflexivity. destruct (span is_digit t1) as [ds t2]. cbn [fst snd].
    destruct ds; [exact Logic.I|]. rewrite all_pad. auto. }
  destruct t as [|a t].
  - cbn [app]. destruct n as [|n]; [cbn; auto|]. rewrite blanks_S. cbn. split; [reflexivity|]. symmetry. apply (all_pad [] n).
  - cbn [app read_exp]. destruct (is_expchar a); [apply D|]. destruct (Ascii.eqb a "+" || Ascii.eqb a "-"); [apply (D (a :: t))|]. split; [reflexivity|]. symmetry. apply (all_pad (a :: t) n).
Qed.
Lemma frac_pad (t : text) n : (match t ++ blanks n with c :: t' => if Ascii.eqb c "." then span is_digit t' else ([], t ++ blanks n) | [] => ([], []) end)
  = let r := match t with c :: t' => if Ascii.eqb c "." then span is_digit t' else ([], t) | [] => ([], []) end in (fst r, snd r ++ blanks n).
Proof.
  destruct t as [|a t]; [destruct n; reflexivity|]. cbn [app]. cbv zeta. destruct (Ascii.eqb a "."); [apply span_pad; reflexivity|reflexivity].
Qed.
Lemma real_pad t n : read_real (t ++ blanks n) = read_real t.
Proof.
  unfold read_real. rewrite drop_pad. destruct (drop_blanks t) as [|a u] eqn:E; [reflexivity|]. set (w := a :: u).
  assert (K : exists b v, w ++ blanks n = b :: v) by (exists a, (u ++ blanks n); reflexivity).
  destruct K as (b & v & K). rewrite K. rewrite <- K, sign_pad. destruct (take_sign w) as [neg t2]. cbn [fst snd]. rewrite span_pad by reflexivity.
  destruct (span is_digit t2) as [ip t3]. cbn [fst snd]. rewrite frac_pad. cbv zeta.
  destruct (match t3 with c :: t' => if Ascii.eqb c "." then span is_digit t' else ([], t3) | [] => ([], []) end) as [fp t4]. cbn [fst snd].
  destruct (ip ++ fp); [reflexivity|]. assert (X := exp_pad t4 n). destruct (read_exp t4) as [[k u1]|], (read_exp (t4 ++ blanks n)) as [[k' u2]|]; try contradiction; [|reflexivity].
  destruct X as (<- & ->). reflexivity.
Qed.
(** a field read from two lines that agree up to blanks *)
Lemma pad_int w x y : lj w x = lj w y -> read_int x = read_int y.
Proof. intros E. unfold lj in E. rewrite <- (int_pad x (w - length x)), <- (int_pad y (w - length y)), E. reflexivity. Qed.
Lemma pad_real w x y : lj w x = lj w y -> read_real x = read_real y.
Proof. intros E. unfold lj in E. rewrite <- (real_pad x (w - length x)), <- (real_pad y (w - length y)), E. reflexivity. Qed.
Lemma lj_col c w l : (c + w <= 66)%nat -> lj w (col c w l) = col c w (lj 66 (firstn 66 l)).
Proof.
  intros H. unfold col, lj. rewrite skipn_app, firstn_app. rewrite !firstn_length, !skipn_length, !firstn_length.
  rewrite skipn_firstn_comm, firstn_firstn. replace (Nat.min w (66 - c)) with w by lia. f_equal. unfold blanks.
  assert (R : forall a b, skipn a (repeat SP b) = repeat SP (b - a)).
  { induction a as [|a IH]; intros [|b]; cbn [skipn repeat Nat.sub]; try reflexivity. apply IH. }
  assert (F : forall a b, firstn a (repeat SP b) = repeat SP (Nat.min a b)).
  { induction a as [|a IH]; intros [|b]; cbn; try reflexivity. f_equal. apply IH. }
  rewrite R, F. f_equal. lia.
Qed.

(** ** Reading *)

(** [full]: the lines are complete *)
Section Rel.
Variable full : bool.
Definition alike_lines (l l' : text) : Prop := noLF l /\ noLF l' /\ same_fields l l' /\ (full = true -> (66 <= length l)%nat /\ (66 <= length l')%nat).
Definition rel (c : nat) (s s' : st) : Prop := line s = line s' /\
  ((exists l l' ls ls', buf s = skipn c l ++ LF :: lines_text ls /\ buf s' = skipn c l' ++ LF :: lines_text ls' /\ alike_lines l l' /\ Forall2 alike_lines ls ls')
   \/ (buf s = [] /\ buf s' = [])).
Definition ft {A} (c : nat) (m : M A) (c' : nat) : Prop := forall s s', rel c s s' ->
  match m s, m s' with
  | Ok a t, Ok a' t' => a = a' /\ rel c' t t'
  | Err e t, Err e' t' => e = e' /\ line t = line t'
  | UB, UB => True
  | _, _ => False
  end.
Lemma ft_ret {A} (a : A) c : ft c (ret a) c.
Proof. intros s s' R. cbn. auto. Qed.
Lemma ft_throw {A} e c c' : ft c (@throw A e) c'.
Proof. intros s s' (R & _). cbn. auto. Qed.
Lemma ft_undef {A} c c' : ft c (@undef A) c'.
Proof. intros s s' R. exact Logic.I. Qed.
Lemma ft_bind {A B} (m : M A) (f : A -> M B) a b c : ft a m b -> (forall x, ft b (f x) c) -> ft a (bind m f) c.
Proof.
  intros H K s s' R. unfold bind. specialize (H s s' R). destruct (m s) as [x t|e t|], (m s') as [x' t'|e' t'|]; try contradiction.
  - destruct H as (<- & R'). specialize (K x t t' R'). destruct (f x t), (f x t'); try contradiction; exact K.
  - exact H.
  - exact Logic.I.
Qed.
Lemma ft_lift {A} (o : out A) c : ft c (lift o) c.
Proof. destruct o; [apply ft_ret|apply ft_throw|apply ft_undef]. Qed.
Lemma ft_require b c : ft c (require b) c.
Proof. destruct b; [apply ft_ret|apply ft_throw]. Qed.
Lemma ft_on_err {A} (m : M A) h a b : PropCols.tame_handler h -> ft a m b -> ft a (on_err m h) b.
Proof.
  intros T H s s' R. unfold on_err. specialize (H s s' R). destruct (m s) as [x t|e t|], (m s') as [x' t'|e' t'|]; try contradiction; try exact H.
  destruct H as (<- & L). destruct (T e t t' L) as [T1 T2]. destruct (h e t), (h e t'). split; assumption.
Qed.
Lemma field_in w : forall t r, noLF t -> field w (t ++ LF :: r) = (firstn w t, skipn w t ++ LF :: r).
Proof.
  induction w as [|w IH]; intros t r N; [reflexivity|]. destruct t as [|a t].
  - cbn [app field]. rewrite Ascii.eqb_refl. reflexivity.
  - cbn [app field firstn skipn]. destruct (Ascii.eqb_spec a LF) as [->|Na]; [destruct (N (or_introl eq_refl))|]. rewrite IH by (intros I1; apply N; now right). reflexivity.
Qed.
Lemma field_nil w : field w [] = ([], []). Proof. destruct w; reflexivity. Qed.
Lemma noLF_skip c l : noLF l -> noLF (skipn c l).
Proof. intros N I1. apply N. rewrite <- (firstn_skipn c l). apply in_or_app. now right. Qed.
Lemma skip_skip {A} (a b : nat) (l : list A) : skipn a (skipn b l) = skipn (b + a) l.
Proof. revert l. induction b as [|b IH]; intros l; [reflexivity|]. destruct l; [now rewrite !skipn_nil|]. cbn [skipn Nat.add]. apply IH. Qed.
(** a field of w columns: what is read from it is a function of the field with blanks added *)
Lemma ft_padded {A} (f : text -> M A) w c c' : (c + w <= 66)%nat ->
  (forall x y s s', lj w x = lj w y -> rel (c + w) s s' -> match f x s, f y s' with
    | Ok a t, Ok a' t' => a = a' /\ rel c' t t' | Err e t, Err e' t' => e = e' /\ line t = line t' | UB, UB => True | _, _ => False end) ->
  ft c (bind (rd_field w) f) c'.
Proof.
  intros H K s s' (R & D). unfold bind, rd_field. destruct D as [(l & l' & ls & ls' & B & B' & (N & N' & S & Fu) & F)|(B & B')].
  - rewrite B, B'. rewrite !field_in by now apply noLF_skip. rewrite !skip_skip. apply K.
    + destruct S as (E & _). change (lj w (col c w l) = lj w (col c w l')). rewrite !lj_col, E by assumption. reflexivity.
    + split; [exact R|]. left. exists l, l', ls, ls'. unfold alike_lines. auto 10.
  - rewrite B, B', field_nil. apply K; [reflexivity|]. split; [exact R|]. right. auto.
Qed.
Lemma ft_int w c : (c + w <= 66)%nat -> ft c (rd_int w) (c + w).
Proof.
  intros H. apply ft_padded; [exact H|]. intros x y s s' E R. rewrite (pad_int _ _ _ E). destruct (read_int y); [apply (ft_ret _ _ _ _ R)|apply (ft_throw EStd (c + w) (c + w) _ _ R)].
Qed.
Lemma ft_real c : (c + 11 <= 66)%nat -> ft c rd_real (c + 11).
Proof.
  intros H. apply ft_padded; [exact H|]. intros x y s s' E R. rewrite (pad_real _ _ _ E). destruct (read_real y); [apply (ft_ret _ _ _ _ R)|apply (ft_throw EStd (c + 11) (c + 11) _ _ R)].
Qed.
Lemma ft_chars w c : (c + w <= 66)%nat -> ft c (rd_chars w) (c + w).
Proof. intros H. apply ft_padded; [exact H|]. intros x y s s' E R. rewrite E. apply (ft_ret _ _ _ _ R). Qed.
Lemma rel_start ls ls' s s' : line s = line s' -> buf s = lines_text ls -> buf s' = lines_text ls' -> Forall2 alike_lines ls ls' -> rel 0 s s'.
Proof.
  intros L B B' F. split; [exact L|]. inversion F; subst; [right; auto|left].
  exists x, y, l, l'. rewrite B, B', !text_cons. auto.
Qed.
Lemma ft_tail : ft 66 rd_tail 0.
Proof.
  intros s s' (R & D). destruct s as [t ln], s' as [t' ln']. cbn [buf line] in *. subst ln'. destruct D as [(l & l' & ls & ls' & B & B' & (N & N' & S & Fu) & F)|(B & B')].
  - subst t t'. destruct S as (_ & E1 & E2 & E3). unfold col in E1, E2, E3. unfold rd_tail, rd_int, rd_eol, inc_line, bind, rd_field. cbn [buf line].
    rewrite !field_in by now apply noLF_skip. cbn [buf line]. rewrite E1. destruct (read_int (firstn 4 (skipn 66 l'))); [|cbn; auto]. cbn [of_opt ret buf line].
    rewrite !skip_skip. rewrite !field_in by now apply noLF_skip. change (66 + 4)%nat with 70%nat. rewrite E2. destruct (read_int (firstn 2 (skipn 70 l'))); [|cbn; auto]. cbn [of_opt ret buf line].
    rewrite !skip_skip. rewrite !field_in by now apply noLF_skip. change (70 + 2)%nat with 72%nat. rewrite E3. destruct (read_int (firstn 3 (skipn 72 l'))); [|cbn; auto]. cbn [of_opt ret buf line].
    split; [reflexivity|]. rewrite !skip_skip, !next_line_app by now apply noLF_skip. cbn [snd]. apply (rel_start ls ls'); auto.
  - subst t t'. cbn. split; [reflexivity|]. split; [reflexivity|]. right. auto.
Qed.
Lemma ft_advance n c : full = true -> (c + n <= 66)%nat -> ft c (advance n) (c + n).
Proof.
  intros G H s s' (R & D). unfold advance. destruct D as [(l & l' & ls & ls' & B & B' & (N & N' & S & Fu) & F)|(B & B')].
  - destruct (Fu G) as (L & L'). rewrite B, B'. rewrite !app_length, !skipn_length.
    destruct (Nat.leb_spec n (length l - c + length (LF :: lines_text ls))); [|lia]. destruct (Nat.leb_spec n (length l' - c + length (LF :: lines_text ls'))); [|lia].
    split; [reflexivity|]. split; [exact R|]. left. exists l, l', ls, ls'. cbn [buf]. rewrite !skipn_app, !skip_skip, !skipn_length.
    replace (n - (length l - c))%nat with 0%nat by lia. replace (n - (length l' - c))%nat with 0%nat by lia. unfold alike_lines. auto 10.
  - rewrite B, B'. destruct n as [|n]; [|exact Logic.I]. cbn. split; [reflexivity|]. split; [exact R|]. right. auto.
Qed.
Lemma ft_eq {A} (m : M A) c a b : a = b -> ft c m a -> ft c m b.
Proof. intros ->. auto. Qed.
Lemma ft_verify a b c : ft 66 (verify_tail a b c) 0.
Proof.
  unfold verify_tail. eapply ft_bind; [apply ft_tail|intros [[x y] z]]. eapply ft_bind; [destruct (z =? c); [apply ft_ret|apply ft_throw]|intros _].
  eapply ft_bind; [destruct (y =? b); [apply ft_ret|apply ft_throw]|intros _]. destruct (x =? a); [apply ft_ret|apply ft_throw].
Qed.
Lemma ft_base : ft 0 rd_base 66.
Proof.
  unfold rd_base. eapply ft_bind; [apply ft_real; lia|intros x1]. eapply ft_bind; [apply ft_real; lia|intros x2]. eapply ft_bind; [apply ft_int; lia|intros x3].
  eapply ft_bind; [apply ft_int; lia|intros x4]. eapply ft_bind; [apply ft_int; lia|intros x5]. eapply ft_bind; [apply ft_int; lia|intros x6]. apply ft_ret.
Qed.
Lemma ft_rd_n {A} (m : M A) w : (forall c, (c + w <= 66)%nat -> ft c m (c + w)) -> forall n c, (c + n * w <= 66)%nat -> ft c (rd_n m n) (c + n * w).
Proof.
  intros H n. induction n as [|n IH]; intros c L; cbn [rd_n].
  - apply (ft_eq _ _ c); [lia|apply ft_ret].
  - cbn [Nat.mul] in *. eapply ft_bind; [apply H; lia|intros x]. eapply ft_bind; [apply IH; lia|intros xs].
    apply (ft_eq _ _ (c + w + n * w)); [lia|apply ft_ret].
Qed.
Lemma ft_leftover {A} (m : M A) (d : A -> bool) w : (forall c, (c + w <= 66)%nat -> ft c m (c + w)) -> forall n c, (c + n * w <= 66)%nat -> ft c (rd_leftover m d n) (c + n * w).
Proof.
  intros H n. induction n as [|n IH]; intros c L; cbn [rd_leftover].
  - apply (ft_eq _ _ c); [lia|apply ft_ret].
  - cbn [Nat.mul] in *. eapply ft_bind; [apply H; lia|intros x]. eapply ft_bind; [apply ft_require|intros _].
    apply (ft_eq _ _ (c + w + n * w)); [lia|apply IH; lia].
Qed.
Lemma rl_unzip {A} (m : M A) d k w mat mf mt n : (forall c, (c + w <= 66)%nat -> ft c m (c + w)) -> (0 < k)%nat -> (k * w = 66)%nat ->
  ft 0 (unzip m d k mat mf mt n) 0.
Proof.
  intros H K L.
  assert (Z1 : ft 0 (rd_zline m k mat mf mt) 0).
  { unfold rd_zline. eapply ft_bind; [apply (ft_rd_n m w H); lia|intros xs]. cbn [Nat.add]. rewrite L. eapply ft_bind; [apply ft_verify|intros _]. apply ft_ret. }
  assert (Z2 : forall q, ft 0 (rd_zlines m k mat mf mt q) 0).
  { induction q as [|q IH]; cbn [rd_zlines]; [apply ft_ret|]. eapply ft_bind; [exact Z1|intros xs]. eapply ft_bind; [exact IH|intros ys]. apply ft_ret. }
  unfold unzip. eapply ft_bind; [apply Z2|intros xs]. destruct (n mod k =? 0)%nat; [apply ft_ret|]. eapply ft_bind; [|intros ys; apply ft_ret].
  assert (N : (n mod k < k)%nat) by (apply Nat.mod_upper_bound; lia). set (r := (n mod k)%nat) in *. unfold rd_zpartial.
  eapply ft_bind; [apply (ft_rd_n m w H); nia|intros zs].
  eapply ft_bind; [apply (ft_leftover m d w H); nia|intros _].
  replace (0 + r * w + (k - r) * w)%nat with 66%nat by nia. eapply ft_bind; [apply ft_verify|intros _]. apply ft_ret.
Qed.
Lemma f_cont a b c : ft 0 (rd_cont a b c) 0.
Proof. apply ft_on_err; [apply PropCols.tame_dec|]. eapply ft_bind; [apply ft_base|intros x]. eapply ft_bind; [apply ft_verify|intros _]. apply ft_ret. Qed.
Lemma f_text a b c : ft 0 (rd_text a b c) 0.
Proof. apply ft_on_err; [apply PropCols.tame_dec|]. eapply ft_bind; [apply ft_chars; lia|intros x]. eapply ft_bind; [apply ft_verify|intros _]. apply ft_ret. Qed.
Lemma f_dir a b c : ft 0 (rd_dir a b c) 0.
Proof.
  apply ft_on_err; [apply PropCols.tame_dec|]. eapply ft_bind; [apply ft_int; lia|intros x1]. eapply ft_bind; [apply ft_int; lia|intros x2].
  eapply ft_bind; [apply ft_int; lia|intros x3]. eapply ft_bind; [apply ft_int; lia|intros x4]. eapply ft_bind; [apply ft_verify|intros _]. apply ft_ret.
Qed.
Lemma f_sdiv : ft 0 rd_sdiv 0.
Proof.
  apply ft_on_err; [apply PropCols.tame_nodec|]. eapply ft_bind; [apply ft_base|intros x]. eapply ft_bind; [apply ft_tail|intros [[m f] s]].
  eapply ft_bind; [apply ft_require|intros _]. eapply ft_bind; [apply ft_require|intros _]. eapply ft_bind; [apply ft_require|intros _]. apply ft_ret.
Qed.
Lemma f_list a b c : ft 0 (rd_list a b c) 0.
Proof.
  apply ft_on_err; [apply PropCols.tame_nodec|]. eapply ft_bind; [apply ft_on_err; [apply PropCols.tame_std|]|intros x].
  - eapply ft_bind; [apply ft_base|intros x]. eapply ft_bind; [apply ft_verify|intros _]. eapply ft_bind; [apply ft_require|intros _]. apply ft_ret.
  - eapply ft_bind; [apply (rl_unzip _ _ _ 11); [intros; apply ft_real; lia|lia|lia]|intros l]. apply ft_ret.
Qed.
Lemma ft_pair_int c : (c + 22 <= 66)%nat -> ft c rd_pair_int (c + 22).
Proof.
  intros L. eapply ft_bind; [apply ft_int; lia|intros x]. eapply ft_bind; [apply ft_int; lia|intros y]. apply (ft_eq _ _ (c + 11 + 11)); [lia|apply ft_ret].
Qed.
Lemma ft_pair_real c : (c + 22 <= 66)%nat -> ft c rd_pair_real (c + 22).
Proof.
  intros L. eapply ft_bind; [apply ft_real; lia|intros x]. eapply ft_bind; [apply ft_real; lia|intros y]. apply (ft_eq _ _ (c + 11 + 11)); [lia|apply ft_ret].
Qed.
Lemma f_ibase a b c : ft 0 (rd_ibase a b c) 0.
Proof.
  unfold rd_ibase. eapply ft_bind; [apply ft_base|intros x]. eapply ft_bind; [apply ft_verify|intros _]. eapply ft_bind; [apply ft_require|intros _].
  eapply ft_bind; [destruct (n2 x <? 0); [apply ft_throw|apply ft_ret]|intros _].
  eapply ft_bind; [apply ft_on_err; [apply PropCols.tame_std|]|intros ps].
  - eapply ft_bind; [apply (rl_unzip _ _ _ 22); [apply ft_pair_int|lia|lia]|intros l]. eapply ft_bind; [apply ft_require|intros _]. apply ft_ret.
  - eapply ft_bind; [apply ft_lift|intros t]. eapply ft_bind; [destruct (n2 x =? tn2 t); [apply ft_ret|apply ft_throw]|intros _]. apply ft_ret.
Qed.
Lemma f_tab2 a b c : ft 0 (rd_tab2 a b c) 0.
Proof. apply ft_on_err; [apply PropCols.tame_tab|apply f_ibase]. Qed.
Lemma f_tab1 a b c : ft 0 (rd_tab1 a b c) 0.
Proof.
  apply ft_on_err; [apply PropCols.tame_tab|]. eapply ft_bind; [apply f_ibase|intros x]. eapply ft_bind; [apply ft_on_err; [apply PropCols.tame_std|]|intros ps; apply ft_ret].
  eapply ft_bind; [apply (rl_unzip _ _ _ 22); [apply ft_pair_real|lia|lia]|intros l]. eapply ft_bind; [apply ft_require|intros _]. apply ft_ret.
Qed.
(** INTG: the columns between the integers are skipped, so that the lines have to be there *)
Lemma f_intg nd a b c : full = true -> (2 <= nd <= 6)%nat -> ft 0 (rd_intg nd (intg_cap nd) a b c) 0.
Proof.
  intros G N. assert (W : (5 + 5 + intg_lead nd + intg_cap nd * (nd + 1) + intg_gap nd = 66)%nat).
  { do 7 (destruct nd as [|nd]; [cbn in *; lia|]). lia. }
  apply ft_on_err; [apply PropCols.tame_nodec|]. eapply ft_bind; [apply ft_int; lia|intros i]. eapply ft_bind; [apply ft_int; lia|intros j].
  eapply ft_bind; [apply ft_advance; [exact G|lia]|intros _]. eapply ft_bind; [apply (ft_rd_n _ (nd + 1)); [intros; apply ft_int; lia|lia]|intros ks].
  eapply ft_bind; [apply ft_advance; [exact G|lia]|intros _]. eapply ft_bind; [apply ft_lift|intros r].
  eapply ft_bind; [eapply (ft_eq _ _ 0); [reflexivity|]|intros _; apply ft_ret].
  replace (0 + 5 + 5 + intg_lead nd + intg_cap nd * (nd + 1) + intg_gap nd)%nat with 66%nat by lia. apply ft_verify.
Qed.
(** reading by whole lines *)
Lemma ft_keeps {A} (m : M A) : ft 0 m 0 -> PropCols.from_to 0 m 0 -> Keeps.keeps (rel 0) m.
Proof.
  intros H K s s' R. specialize (H s s' R).
  assert (R' : PropCols.rel 0 s s) by (split; [reflexivity|exists 0%nat; split; [lia|reflexivity]]). specialize (K s s R').
  destruct (m s), (m s'); try contradiction; try exact H. destruct H as (E & H). split; [exact E|]. split; [exact H|]. tauto.
Qed.
End Rel.
Lemma lib_rel full c h mat : (c = K32_151 -> full = true) -> Keeps.keeps (rel full 0) (Sections.rd_section (skind_of c) h mat).
Proof.
  apply (Keeps.rl_lib (rel full 0) (fun s s' R => proj1 R)); intros; apply ft_keeps;
    first [apply f_cont | apply f_text | apply f_dir | apply f_sdiv | apply f_list | apply f_tab1 | apply f_tab2 | (apply f_intg; assumption)
          | apply PropCols.rl_cont | apply PropCols.rl_text | apply PropCols.rl_dir | apply PropCols.rl_sdiv | apply PropCols.rl_list
          | apply PropCols.rl_tab1 | apply PropCols.rl_tab2 | apply PropCols.rl_intg].
Qed.
Lemma sdiv_rel full : Keeps.keeps (rel full 0) rd_sdiv.
Proof. apply ft_keeps; [apply f_sdiv|apply PropCols.rl_sdiv]. Qed.

(** ** C75 *)
(** Two texts of lines; [full]: with all their lines at least 66 characters long *)
Definition like_lines (full : bool) (ls ls' : list text) : Prop :=
  Forall noLF ls /\ Forall noLF ls' /\ Forall2 same_fields ls ls'
  /\ (full = true -> Forall (fun l => (66 <= length l)%nat) ls /\ Forall (fun l => (66 <= length l)%nat) ls').
Definition like {A} (r r' : res A) : Prop :=
  match r, r' with
  | Ok a s, Ok a' s' => a = a' /\ line s = line s'
  | Err e s, Err e' s' => e = e' /\ line s = line s'
  | UB, UB => True
  | _, _ => False
  end.
Lemma like_rel full ls ls' ln : like_lines full ls ls' -> rel full 0 (mkst (lines_text ls) ln) (mkst (lines_text ls') ln).
Proof.
  intros (N & N' & F & G). apply (rel_start full ls ls'); try reflexivity.
  induction F as [|l l' ls ls' S F IH]; [constructor|]. inversion N; inversion N'; subst. constructor.
  - split; [assumption|]. split; [assumption|]. split; [exact S|]. intros E. destruct (G E) as (K & K'). inversion K; inversion K'; auto.
  - apply IH; try assumption. intros E. destruct (G E) as (K & K'). inversion K; inversion K'; auto.
Qed.
Lemma keeps_like full {A} (m : M A) ls ls' ln : Keeps.keeps (rel full 0) m -> like_lines full ls ls' -> like (m (mkst (lines_text ls) ln)) (m (mkst (lines_text ls') ln)).
Proof.
  intros K L. specialize (K _ _ (like_rel full ls ls' ln L)). unfold like. destruct (m _), (m _); try contradiction; try exact K. destruct K as (E & (R & _) & _). auto.
Qed.
(** The records *)
Theorem C75_records : forall ls ls' ln, like_lines false ls ls' ->
  like (rd_sdiv (mkst (lines_text ls) ln)) (rd_sdiv (mkst (lines_text ls') ln))
  /\ forall mat mf mt,
     like (rd_cont mat mf mt (mkst (lines_text ls) ln)) (rd_cont mat mf mt (mkst (lines_text ls') ln))
     /\ like (rd_text mat mf mt (mkst (lines_text ls) ln)) (rd_text mat mf mt (mkst (lines_text ls') ln))
     /\ like (rd_dir mat mf mt (mkst (lines_text ls) ln)) (rd_dir mat mf mt (mkst (lines_text ls') ln))
     /\ like (rd_list mat mf mt (mkst (lines_text ls) ln)) (rd_list mat mf mt (mkst (lines_text ls') ln))
     /\ like (rd_tab1 mat mf mt (mkst (lines_text ls) ln)) (rd_tab1 mat mf mt (mkst (lines_text ls') ln))
     /\ like (rd_tab2 mat mf mt (mkst (lines_text ls) ln)) (rd_tab2 mat mf mt (mkst (lines_text ls') ln)).
Proof.
  intros ls ls' ln L. split; [apply (keeps_like false); [apply sdiv_rel|exact L]|]. intros a b c.
  repeat match goal with |- _ /\ _ => split end; apply (keeps_like false); try exact L; apply ft_keeps;
    first [apply f_cont | apply f_text | apply f_dir | apply f_list | apply f_tab1 | apply f_tab2
          | apply PropCols.rl_cont | apply PropCols.rl_text | apply PropCols.rl_dir | apply PropCols.rl_list
          | apply PropCols.rl_tab1 | apply PropCols.rl_tab2].
Qed.
(** INTG: of complete lines *)
Theorem C75_intg : forall ls ls' ln nd mat mf mt, like_lines true ls ls' -> (2 <= nd <= 6)%nat ->
  like (rd_intg nd (intg_cap nd) mat mf mt (mkst (lines_text ls) ln)) (rd_intg nd (intg_cap nd) mat mf mt (mkst (lines_text ls') ln)).
Proof. intros ls ls' ln nd a b c L N. apply (keeps_like true); [apply ft_keeps; [apply f_intg; [reflexivity|exact N]|apply PropCols.rl_intg]|exact L]. Qed.
(** the sections *)
Theorem C75_section : forall full c h mat ls ls' ln, like_lines full ls ls' -> (c = K32_151 -> full = true) ->
  like (Sections.rd_section (skind_of c) h mat (mkst (lines_text ls) ln)) (Sections.rd_section (skind_of c) h mat (mkst (lines_text ls') ln)).
Proof. intros full c h mat ls ls' ln L G. apply (keeps_like full); [apply lib_rel, G|exact L]. Qed.
Lemma parse_rel full c : (c = K32_151 -> full = true) -> Keeps.keeps (rel full 0) (rd_parse (skind_of c)).
Proof.
  intros G. unfold rd_parse. apply (Keeps.rl_bind (rel full 0) (fun s s' R => proj1 R) true); [apply sdiv_rel|intros h; exact (lib_rel full c h (smat h) G)].
Qed.
Theorem C75_parse : forall full c a b d ls ls', like_lines full ls ls' -> (c = K32_151 -> full = true) ->
  sec_parse (skind_of c) (mktsec a b d (lines_text ls)) = sec_parse (skind_of c) (mktsec a b d (lines_text ls')).
Proof.
  intros full c a b d ls ls' L G. unfold sec_parse. cbn [ts_text]. assert (K := keeps_like full _ ls ls' 1 (parse_rel full c G) L). unfold like in K.
  destruct (rd_parse _ (mkst (lines_text ls) 1)), (rd_parse _ (mkst (lines_text ls') 1)); try contradiction; [|destruct K as (-> & _)|]; try reflexivity. now destruct K as (-> & _).
Qed.

(** ** Typed files, materials and tapes, of complete lines *)
Lemma rel_sym full c s s' : rel full c s s' -> rel full c s' s.
Proof.
  intros (H & D). split; [auto|]. destruct D as [(l & l' & ls & ls' & B & B' & A & F)|(B & B')]; [left|right; auto].
  assert (Y : forall x y, alike_lines full x y -> alike_lines full y x). { intros x y (N & N' & (S1 & S2 & S3 & S4) & G). unfold alike_lines, same_fields. intuition. }
  exists l', l, ls', ls. split; [exact B'|]. split; [exact B|]. split; [now apply Y|]. clear -F Y. induction F; constructor; auto.
Qed.
Lemma rel_empty full s s' : rel full 0 s s' -> buf s = [] -> s' = s.
Proof.
  intros (H & D) E. destruct s as [b l], s' as [b' l']. cbn [buf line] in *. subst b l'.
  destruct D as [(x & x' & ls & ls' & B & _)|(_ & ->)]; [exfalso|reflexivity]. destruct (skipn 0 x); discriminate.
Qed.
Lemma f_tpid full : ft full 0 rd_tpid 0.
Proof.
  apply ft_on_err; [apply PropCols.tame_dec|]. eapply ft_bind; [apply ft_chars; lia|intros x]. eapply ft_bind; [apply ft_tail|intros [[m f] s]].
  eapply ft_bind; [destruct (s =? 0); [apply ft_ret|apply ft_throw]|intros _]. eapply ft_bind; [destruct (f =? 0); [apply ft_ret|apply ft_throw]|intros _]. apply ft_ret.
Qed.
Lemma f_skip full : ft full 0 rd_skip 0.
Proof. eapply ft_bind; [apply ft_chars; lia|intros x]. apply ft_tail. Qed.
Lemma skip_rel : Keeps.keeps (rel true 0) rd_skip.
Proof. apply ft_keeps; [apply f_skip|apply PropCols.rl_skip]. Qed.
Lemma tpid_rel : Keeps.keeps (rel true 0) rd_tpid.
Proof. apply ft_keeps; [apply f_tpid|apply PropCols.rl_tpid]. Qed.
Lemma any_rel mf d : Keeps.keeps (rel true 0) (Typed.rd_any skind_of lib_class mf d).
Proof.
  unfold Typed.rd_any. destruct (lib_class mf (smt d)) as [c|]; [|apply (KeepsTree.k_throw _ (fun s s' R => proj1 R))].
  apply (Keeps.rl_bind (rel true 0) (fun s s' R => proj1 R) true); [apply lib_rel; reflexivity|intros x; apply KeepsTree.k_ret].
Qed.
Theorem C75_file : forall mf ls ls' ln, like_lines true ls ls' ->
  like (parse_yfile skind_of lib_class mf (mkst (lines_text ls) ln)) (parse_yfile skind_of lib_class mf (mkst (lines_text ls') ln)).
Proof.
  intros mf ls ls' ln L. apply (keeps_like true); [|exact L]. unfold parse_yfile. apply (Keeps.rl_bind (rel true 0) (fun s s' R => proj1 R) true); [apply sdiv_rel|intros h].
  exact (KeepsTree.rl_yfile (rel true 0) (fun s s' R => proj1 R) (rel_sym true 0) (rel_empty true) (sdiv_rel true) skip_rel any_rel mf h).
Qed.
Theorem C75_material : forall ls ls' ln, like_lines true ls ls' ->
  like (parse_ymat skind_of lib_class (mkst (lines_text ls) ln)) (parse_ymat skind_of lib_class (mkst (lines_text ls') ln)).
Proof.
  intros ls ls' ln L. apply (keeps_like true); [|exact L]. unfold parse_ymat. apply (Keeps.rl_bind (rel true 0) (fun s s' R => proj1 R) true); [apply sdiv_rel|intros h].
  exact (KeepsTree.rl_ymat (rel true 0) (fun s s' R => proj1 R) (rel_sym true 0) (rel_empty true) (sdiv_rel true) skip_rel any_rel h).
Qed.
Theorem C75_tape : forall ls ls' ln, like_lines true ls ls' ->
  like (rd_ytape skind_of lib_class (mkst (lines_text ls) ln)) (rd_ytape skind_of lib_class (mkst (lines_text ls') ln)).
Proof.
  intros ls ls' ln L. apply (keeps_like true); [|exact L].
  exact (KeepsTree.rl_ytape (rel true 0) (fun s s' R => proj1 R) (rel_sym true 0) (rel_empty true) (sdiv_rel true) skip_rel tpid_rel any_rel).
Qed.

(** ** clean() *)
Lemma nth_mid (ls : list text) r i l : Forall noLF ls -> nth_error ls i = Some l -> nth_line (lines_text ls ++ r) i = l.
Proof.
  intros F. revert i. induction F as [|a ls N F IH]; intros i E; [destruct i; discriminate|]. rewrite text_cons, <- app_assoc. cbn [app].
  destruct i as [|i]; cbn [nth_line]; rewrite next_line_app by assumption; [injection E as ->; reflexivity|]. cbn [snd]. apply IH, E.
Qed.
Lemma line0 e : noLF e -> nth_line (lines_text [e]) 0 = e.
Proof. intros N. rewrite text_cons. cbn [nth_line]. now rewrite next_line_app. Qed.
(** the SEND is the last line: what is read before does not depend on how it is written *)
Lemma swap_send c mat mf mt ls e e' x s' u v : rd_parse (skind_of c) (mkst (lines_text (ls ++ [e])) 1) = Ok x s' ->
  mat <> 0 -> mt <> 0 -> mf = k_mf (skind_of c) -> ls <> [] -> Forall noLF (ls ++ [e]) -> noLF e' -> Forall (carries mat mf mt) ls ->
  (c = K32_151 -> long_lines (lines_text (ls ++ [e]))) -> rd_SEND mat mf (mkst (lines_text [e']) 1) = Ok u v ->
  (exists r, rd_parse (skind_of c) (mkst (lines_text (ls ++ [e'])) 1) = Ok x r) /\ (exists w r, rd_SEND mat mf (mkst (lines_text [e]) 1) = Ok w r).
Proof.
  intros E Hm Ht -> Hl N N' C L S1. set (mf := k_mf (skind_of c)) in *. apply Forall_app in N. destruct N as [N Ne]. inversion Ne as [|? ? Ne' _]; subst.
  destruct ls as [|l0 ls]; [contradiction|]. clear Hl. unfold rd_parse in *. apply bind_ok in E. destruct E as (h & s0 & E0 & E).
  assert (B0 := PropCut2.sdiv_st _ _ _ _ E0). subst s0.
  set (q := lines_text ((l0 :: ls) ++ [e])) in *. set (t := lines_text ((l0 :: ls) ++ [e'])).
  assert (Q : forall i l, nth_error (l0 :: ls) i = Some l -> nth_line q i = l) by (intros i l K; unfold q; rewrite lines_app; now apply nth_mid).
  assert (T1 : forall i l, nth_error (l0 :: ls) i = Some l -> nth_line t i = l) by (intros i l K; unfold t; rewrite lines_app; now apply nth_mid).
  assert (Qe : nth_line q (length (l0 :: ls)) = e).
  { replace (nth_line q (length (l0 :: ls))) with (nth_line (drop_lines (length (l0 :: ls)) q) 0) by (rewrite nth_after; f_equal; lia).
    unfold q. rewrite lines_app, PropCut2.drop_same by (assumption || lia). rewrite skipn_all. cbn [app]. apply (line0 e Ne'). }
  assert (Te : drop_lines (length (l0 :: ls)) t = lines_text [e']).
  { unfold t. rewrite lines_app, PropCut2.drop_same by (assumption || lia). rewrite skipn_all. reflexivity. }
  assert (Hh : smat h = mat).
  { destruct (SectionProofs.rd_sdiv_cols _ _ _ E0) as (l & b & Nx & _ & Tl & _). cbn [buf] in Nx. assert (K := Q 0%nat l0 eq_refl). cbn [nth_line] in K. rewrite Nx in K. cbn [fst] in K. subst l.
    assert (C0 := Forall_inv C). destruct C0 as (K1 & _). destruct Tl as (K2 & _). congruence. }
  assert (L1 : c = K32_151 -> long_lines (drop_lines 1 q)) by (intros H i K; specialize (L H (Datatypes.S i)); apply L; exact K).
  destruct (lib_body _ _ _ _ _ _ E L1) as (s1 & (a & B1 & Ln1 & P1) & (b & B2 & Ln2 & P2) & L3 & Rd). cbn [buf line] in *. rewrite Hh in *. fold mf in P2, P1, Rd.
  assert (b = 1%nat) by lia. subst b. specialize (P2 0%nat ltac:(lia)). rewrite B1, drop_after, nth_after, Nat.add_0_r in P2.
  assert (A : (1 + a)%nat = length (l0 :: ls)).
  { destruct (Nat.lt_trichotomy (1 + a) (length (l0 :: ls))) as [H|[H|H]]; [|exact H|]; exfalso.
    - destruct (nth_error (l0 :: ls) (1 + a)) as [l|] eqn:K; [|apply nth_error_None in K; lia]. rewrite (Q _ _ K) in P2. apply nth_error_In in K. rewrite Forall_forall in C. apply C in K.
      destruct K as (_ & _ & K). destruct P2 as ((_ & _ & K') & _). congruence.
    - assert (K : nth_line q (1 + a) = []). { apply after_last. unfold q. rewrite PropCut2.lines_count by (apply Forall_app; auto). rewrite app_length. cbn [length] in *. lia. }
      rewrite K in P2. destruct P2 as ((K' & _) & _). vm_compute in K'. congruence. }
  rewrite A, Qe in P2.
  assert (Lt : line s' - (1 + 1) - 1 = Z.of_nat a) by lia. rewrite Lt in Rd. rewrite Nat2Z.id in Rd.
  assert (Rq := Rd (drop_lines 1 q) (1 + 1) ltac:(reflexivity)).
  assert (Rt := Rd (drop_lines 1 t) (1 + 1)). rewrite drop_after, A, Te in Rt. cbv zeta in Rt.
  assert (Same : forall i, Z.of_nat i < Z.of_nat a -> nth_line (drop_lines 1 t) i = nth_line (drop_lines 1 q) i).
  { intros i Hi. rewrite !nth_after. destruct (nth_error (l0 :: ls) (1 + i)) as [l|] eqn:K; [|apply nth_error_None in K; lia]. rewrite (Q _ _ K), (T1 _ _ K). reflexivity. }
  specialize (Rt Same). rewrite drop_after, A in Rq.
  unfold Sections.rd_section in E. apply bind_ok in E. destruct E as ([za awr] & s3 & E1 & E). destruct (head_any _ _ _ _ _ _ _ _ E1) as (-> & Hany).
  fold mf in E, Hany. apply bind_ok in E. destruct E as (bd & s4 & E2 & E). rewrite Rq in E2. injection E2 as <- <-.
  apply bind_ok in E. destruct E as (w & s5 & E3 & E). cbn in E. injection E as <- _.
  assert (Eq1 : nth_line (drop_lines (length (l0 :: ls)) q) 0 = e) by (rewrite nth_after, Nat.add_0_r; exact Qe).
  split.
  - assert (E0' := first_same q t 1 1 h _ E0). rewrite (Q 0%nat l0 eq_refl), (T1 0%nat l0 eq_refl) in E0'. specialize (E0' eq_refl).
    unfold bind at 1. rewrite E0'. unfold Sections.rd_section. unfold bind at 1. rewrite Hh, Hany. fold mf. unfold bind at 1. rewrite Rt.
    destruct (send_same _ _ _ _ _ _ S1) as (_ & K). specialize (K (lines_text [e']) (1 + 1 + Z.of_nat a) eq_refl). unfold bind. rewrite K. cbn. eauto.
  - destruct (send_same _ _ _ _ _ _ E3) as (_ & K). exists w. eexists. apply (K (lines_text [e]) 1).
    exact (eq_trans (line0 e Ne') (eq_sym Eq1)).
Qed.
Lemma long_text ls : Forall noLF ls -> Forall (fun l => (66 <= length l)%nat) ls -> long_lines (lines_text ls).
Proof.
  intros N F i H. destruct (nth_error ls i) as [l|] eqn:K.
  - assert (E := nth_mid ls [] i l N K). rewrite app_nil_r in E. rewrite E. apply nth_error_In in K. rewrite Forall_forall in F. now apply F.
  - apply nth_error_None in K. exfalso. apply H. replace (lines_text ls) with (lines_text ls ++ []) by apply app_nil_r.
    replace i with (length ls + (i - length ls))%nat by lia. rewrite <- drop_after, <- nth_after.
    rewrite PropCut2.drop_same by (assumption || lia). rewrite skipn_all. cbn [app]. change (lines_text []) with (@nil ascii). rewrite nth_line_nil.
    induction (i - length ls)%nat as [|n IH]; [reflexivity|]. cbn [drop_lines]. exact IH.
Qed.
Lemma clean_fields mat mf mt l : good_tail mat mf mt -> carries mat mf mt l -> same_fields l (clean_line mat mf mt l).
Proof.
  intros G (A & B & C). destruct (carries_clean mat mf mt l G) as (A' & B' & C'). split; [|split; [congruence|split; congruence]].
  assert (L := lj_len 66 (col 0 66 l) (col_le 0 66 l)). assert (Q : firstn 66 (clean_line mat mf mt l) = lj 66 (col 0 66 l)) by (unfold clean_line; apply firstn_exact; exact L). rewrite Q.
  rewrite lj_lj by (apply col_le). reflexivity.
Qed.
(** a section of which the HEAD and all other lines carry its MAT, MF and MT, and which ends
    with a SEND, says the same before and after clean() *)
Theorem C75_clean : forall c mat mf mt ls e, 0 < mat < 10000 -> 0 < mf < 100 -> mf = k_mf (skind_of c) -> in_cols 3 mt -> mt <> 0 ->
  ls <> [] -> Forall noLF (ls ++ [e]) -> Forall (carries mat mf mt) ls -> Z.of_nat (length ls) < 2 ^ 31 ->
  (c = K32_151 -> Forall (fun l => (66 <= length l)%nat) (ls ++ [e])) ->
  let s := mktsec mat mf mt (lines_text (ls ++ [e])) in
  snd (sec_clean s) = None
  /\ forall x, sec_parse (skind_of c) s = Val x
      <-> sec_parse (skind_of c) (fst (sec_clean s)) = Val x /\ (exists u r, rd_SEND mat mf (mkst (lines_text [e]) 1) = Ok u r).
Proof.
  intros c mat mf mt ls e Hm Hf Hk Ht Hz Hl N C Hn G s.
  assert (Gt : good_tail mat mf mt) by (split; [unfold in_cols; change (10 ^ (4 - 1)) with 1000; change (10^4) with 10000; lia|split; [unfold in_cols; cbn; lia|exact Ht]]).
  assert (Ce := clean_eq mat mf mt ls e Hm Hf Ht N C Hn). fold s in Ce. rewrite Ce. cbn [fst snd]. split; [reflexivity|]. intros x.
  apply Forall_app in N. destruct N as [N Ne]. assert (Ne' := Forall_inv Ne).
  set (cs := canonical_send mat mf). assert (Sc : exists u r, rd_SEND mat mf (mkst (lines_text [cs]) 1) = Ok u r).
  { assert (R := SectionProofs.reads_SEND mat mf Hm Hf). exists tt. eexists. specialize (R [] 1). rewrite app_nil_r in R. unfold lines_text. cbn [flat_map]. rewrite app_nil_r. exact R. }
  assert (Nc : noLF cs) by apply canon_send_noLF.
  set (cl := map (clean_line mat mf mt) ls).
  assert (Ncl : Forall noLF cl). { apply Forall_map. eapply Forall_impl; [|exact N]. cbv beta. intros l Nl. apply (clean_line_ok mat mf mt l Gt Nl). }
  assert (Ccl : Forall (carries mat mf mt) cl). { apply Forall_map. eapply Forall_impl; [|exact N]. cbv beta. intros l _. now apply carries_clean. }
  assert (Len : forall l, (66 <= length (clean_line mat mf mt l))%nat). { intros l. unfold clean_line. rewrite app_length, (lj_len 66 _ (col_le 0 66 l)). lia. }
  assert (Lcl : Forall (fun l => (66 <= length l)%nat) cl). { apply Forall_map, Forall_forall. intros l _. apply Len. }
  assert (Lcs : (66 <= length cs)%nat). { unfold cs, canonical_send. rewrite app_length, blanks_length. lia. }
  set (full := match c with K32_151 => true | _ => false end). assert (Fu : c = K32_151 -> full = true) by (intros ->; reflexivity).
  assert (Fu' : full = true -> c = K32_151) by (destruct c; (reflexivity || (intros K; discriminate K))). clearbody full.
  assert (G1 : full = true -> Forall (fun l => (66 <= length l)%nat) ls /\ (66 <= length e)%nat).
  { intros K. specialize (G (Fu' K)). apply Forall_app in G. destruct G as (G1 & G2). split; [exact G1|exact (Forall_inv G2)]. }
  assert (Lk : forall e1, noLF e1 -> (full = true -> (66 <= length e1)%nat) -> like_lines full (ls ++ [e1]) (cl ++ [e1])).
  { intros e1 N1 H1. split; [apply Forall_app; auto|]. split; [apply Forall_app; auto|]. split.
    - apply Forall2_app; [|repeat constructor]. unfold cl. clear -C Gt. induction C as [|l ls Cl C IH]; cbn [map]; constructor; [now apply clean_fields|exact IH].
    - intros K. destruct (G1 K) as (K1 & _). split; apply Forall_app; auto. }
  assert (P : forall l1 y, sec_parse (skind_of c) (mktsec mat mf mt (lines_text l1)) = Val y <-> exists r, rd_parse (skind_of c) (mkst (lines_text l1) 1) = Ok y r).
  { intros l1 y. unfold sec_parse. cbn [ts_text]. destruct (rd_parse _ _); split; intros K; try discriminate; try (destruct K; discriminate); [injection K as ->; eauto|destruct K as (r & K); injection K as -> _; reflexivity]. }
  destruct Sc as (u & v & Sc). split.
  - intros E. apply P in E. destruct E as (r & E).
    destruct (swap_send c mat mf mt ls e cs x r u v E) as (E1 & E2); try assumption; [lia|apply Forall_app; auto|intros K; apply long_text; [apply Forall_app; auto|apply G, K]|].
    split; [|exact E2]. apply P in E1. rewrite <- E1. symmetry. apply (C75_parse full); [|exact Fu]. apply Lk; auto.
  - intros (E & (w & r & E2)). apply P in E. destruct E as (r' & E).
    destruct (swap_send c mat mf mt cl cs e x r' w r E) as (E1 & _); try assumption;
      [lia|unfold cl; intros K; apply map_eq_nil in K; contradiction|apply Forall_app; auto|intros K; apply long_text; apply Forall_app; auto|].
    apply P in E1. rewrite <- E1. apply (C75_parse full); [|exact Fu]. apply Lk; [exact Ne'|]. intros K. apply (G1 K).
Qed.
(** a tape and a section of which the lines have no trailing blanks, and MF and MT are at the
    wrong end of their columns *)
Definition messy (l : text) : text :=
  rev (drop_blanks (rev (firstn 70 l ++ lj 2 (drop_blanks (col 70 2 l)) ++ lj 3 (drop_blanks (col 72 3 l))))).
Definition eqz (a b : option Z) : bool := match a, b with Some x, Some y => Z.eqb x y | None, None => true | _, _ => false end.
Lemma eqz_ok a b : eqz a b = true -> a = b.
Proof. destruct a, b; cbn; intros H; try discriminate; [|reflexivity]. apply Z.eqb_eq in H. now subst. Qed.
Definition same_fieldsb (l l' : text) : bool :=
  if list_eq_dec Ascii.ascii_dec (lj 66 (firstn 66 l)) (lj 66 (firstn 66 l')) then
    eqz (read_int (col 66 4 l)) (read_int (col 66 4 l')) && eqz (read_int (col 70 2 l)) (read_int (col 70 2 l')) && eqz (read_int (col 72 3 l)) (read_int (col 72 3 l'))
  else false.
Lemma same_fieldsb_ok l l' : same_fieldsb l l' = true -> same_fields l l'.
Proof.
  unfold same_fieldsb, same_fields. destruct (list_eq_dec _ _ _) as [->|]; [|discriminate]. intros H.
  apply andb_prop in H. destruct H as [H H3]. apply andb_prop in H. destruct H as [H1 H2]. apply eqz_ok in H1, H2, H3. auto.
Qed.
Fixpoint all_same (ls ls' : list text) : bool := match ls, ls' with [], [] => true | l :: m, l' :: m' => same_fieldsb l l' && all_same m m' | _, _ => false end.
Lemma all_same_ok : forall ls ls', all_same ls ls' = true -> Forall2 same_fields ls ls'.
Proof. induction ls as [|l ls IH]; intros [|l' ls'] H; try discriminate; constructor; apply andb_prop in H; [apply same_fieldsb_ok, H|apply IH, H]. Qed.
Lemma messy_tape : like_lines true cut_t (map messy cut_t).
Proof.
  split; [apply no_lf_ok; vm_compute; reflexivity|]. split; [apply no_lf_ok; vm_compute; reflexivity|]. split; [apply all_same_ok; vm_compute; reflexivity|].
  assert (K : forall ls, forallb (fun l => (66 <=? length l)%nat) ls = true -> Forall (fun l : text => (66 <= length l)%nat) ls).
  { intros ls H. apply Forall_forall. rewrite forallb_forall in H. intros l Hl. specialize (H l Hl). cbv beta in H. lia. }
  intros _. split; apply K; vm_compute; reflexivity.
Qed.
Example C75_example_tape : Forall (fun l => (length l <= 75)%nat) (map messy cut_t)
  /\ exists s, rd_ytape skind_of lib_class (mkst (lines_text (map messy cut_t)) 0) = Ok ex_tape s.
Proof.
  split. { apply Forall_forall. assert (K : forallb (fun l => (length l <=? 75)%nat) (map messy cut_t) = true) by (vm_compute; reflexivity).
    rewrite forallb_forall in K. intros l Hl. specialize (K l Hl). cbv beta in K. lia. }
  assert (K := C75_tape _ _ 0 messy_tape). destruct C41_typed_tape_example as (_ & E & _). rewrite E in K.
  destruct (rd_ytape skind_of lib_class (mkst (lines_text (map messy cut_t)) 0)) as [y s|e s|]; [|contradiction|contradiction].
  destruct K as (<- & _). exists s. reflexivity.
Qed.
Definition ex_s : tsec := mktsec 9228 3 1 (lines_text (map messy (firstn 4 cut_f3) ++ [messy (nth 4 cut_f3 [])])).
Example C75_example_clean : snd (sec_clean ex_s) = None /\ ts_text (fst (sec_clean ex_s)) <> ts_text ex_s
  /\ sec_parse (skind_of K3) ex_s = Val (mksect 92235 r_pi 1 (xtab1 0 3)) /\ sec_parse (skind_of K3) (fst (sec_clean ex_s)) = Val (mksect 92235 r_pi 1 (xtab1 0 3)).
Proof.
  assert (N : Forall noLF (map messy (firstn 4 cut_f3) ++ [messy (nth 4 cut_f3 [])])) by (apply no_lf_ok; vm_compute; reflexivity).
  assert (C : Forall (carries 9228 3 1) (map messy (firstn 4 cut_f3))) by (repeat (constructor; [split; [|split]; vm_compute; reflexivity|]); constructor).
  destruct (C75_clean K3 9228 3 1 (map messy (firstn 4 cut_f3)) (messy (nth 4 cut_f3 []))) as (E1 & E2); try assumption; try lia; try reflexivity; try discriminate; [split; reflexivity|].
  fold ex_s in E1, E2. split; [exact E1|]. split; [vm_compute; discriminate|].
  assert (P : sec_parse (skind_of K3) ex_s = Val (mksect 92235 r_pi 1 (xtab1 0 3))) by (vm_compute; reflexivity).
  split; [exact P|]. apply E2 in P. apply P.
Qed.
(** INTG records do depend on it: a line that is too short is not the same as one with blanks *)
Theorem C75_refuted : exists l l' g s, noLF l /\ noLF l' /\ same_fields l l'
  /\ rd_intg 2 (intg_cap 2) 0 0 0 (mkst (lines_text [l]) 1) = UB /\ rd_intg 2 (intg_cap 2) 0 0 0 (mkst (lines_text [l']) 1) = Ok g s.
Proof.
  exists [], (blanks 66), (mkintg 0 0 []), (mkst [] 2). split; [intros []|]. split; [apply noLF_blanks|]. split; [apply same_fieldsb_ok; vm_compute; reflexivity|].
  split; vm_compute; reflexivity.
Qed.
