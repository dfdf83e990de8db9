(** PropCols.v -- C74: what stands after column 75 of a line has no influence.

    The 80-column lines of the format end with a sequence number in columns 76-80.
    The readers never look at it, nor at anything else after column 75, nor at
    how much of it there is. *)
From Coq Require Import ZifyBool ZifyNat.
From Verif Require Import Base Disco Records SecKit Sections Tree Typed Classes PropClasses.
From Verif Require KeepsTree.
From Verif Require Import Keeps.
From Verif Require Import LineFacts TreeSpec PropCut2.
From Verif Require PropTrunc TreeProofs.
Open Scope Z_scope.

(** [first75 c t]: the text without the characters after column 75 of each line, when
    [t] begins after column [c] of a line *)
Fixpoint first75 (c : nat) (t : text) : text :=
  match t with
  | [] => []
  | a :: t' => if Ascii.eqb a LF then LF :: first75 0 t'
               else if (75 <=? c)%nat then first75 (S c) t' else a :: first75 (S c) t'
  end.
(** two texts whose lines agree in the first 75 columns *)
Definition same75 (t t' : text) : Prop := first75 0 t = first75 0 t'.
(** the outcome of reading two such texts: the same value, the same exception, the same
    line number; and what is left of the texts agrees as well *)
Definition alike {A} (r r' : res A) : Prop :=
  match r, r' with
  | Ok a s, Ok a' s' => a = a' /\ line s = line s' /\ same75 (buf s) (buf s')
  | Err e s, Err e' s' => e = e' /\ line s = line s'
  | UB, UB => True
  | _, _ => False
  end.

(** ** Within a line *)

(** the two texts begin at column [c] of a line or further left *)
Definition rel (c : nat) (s s' : st) : Prop :=
  line s = line s' /\ exists c0, (c0 <= c)%nat /\ first75 c0 (buf s) = first75 c0 (buf s').
Definition from_to {A} (c : nat) (m : M A) (c' : nat) : Prop := forall s s', rel c s s' ->
  match m s, m s' with
  | Ok a t, Ok a' t' => a = a' /\ rel c' t t' /\ (mu (buf t) <= mu (buf s))%nat
  | Err e t, Err e' t' => e = e' /\ line t = line t'
  | UB, UB => True
  | _, _ => False
  end.
Notation rl m := (from_to 0 m 0).

Lemma rel_le c c' s s' : (c <= c')%nat -> rel c s s' -> rel c' s s'.
Proof. intros L (H & c0 & L0 & E). split; [exact H|]. exists c0. split; [lia|exact E]. Qed.
Lemma rel0 s s' : rel 0 s s' <-> line s = line s' /\ same75 (buf s) (buf s').
Proof.
  split.
  - intros (H & c0 & L & E). assert (c0 = O) by lia. subst c0. split; assumption.
  - intros (H & E). split; [exact H|]. exists O. split; [lia|exact E].
Qed.

Lemma ft_ret {A} (a : A) c : from_to c (ret a) c.
Proof. intros s s' R. cbn. auto. Qed.
Lemma ft_throw {A} e c c' : from_to c (@throw A e) c'.
Proof. intros s s' (R & _). cbn. auto. Qed.
Lemma ft_undef {A} c c' : from_to c (@undef A) c'.
Proof. intros s s' R. exact Logic.I. Qed.
Lemma ft_bind {A B} (m : M A) (f : A -> M B) a b c : from_to a m b -> (forall x, from_to b (f x) c) -> from_to a (bind m f) c.
Proof.
  intros H K s s' R. unfold bind. specialize (H s s' R). destruct (m s) as [x t|e t|], (m s') as [x' t'|e' t'|]; try contradiction.
  - destruct H as (<- & R' & L). specialize (K x t t' R'). destruct (f x t), (f x t'); try contradiction; intuition lia.
  - exact H.
  - exact Logic.I.
Qed.
Lemma ft_le {A} (m : M A) a a' b b' : (a' <= a)%nat -> (b <= b')%nat -> from_to a m b -> from_to a' m b'.
Proof.
  intros L L' H s s' R. specialize (H s s' (rel_le _ _ _ _ L R)). destruct (m s), (m s'); try contradiction; try exact H.
  destruct H as (E & R' & N). split; [exact E|]. split; [exact (rel_le _ _ _ _ L' R')|exact N].
Qed.
Lemma ft_lift {A} (o : out A) c : from_to c (lift o) c.
Proof. destruct o; [apply ft_ret|apply ft_throw|apply ft_undef]. Qed.
Lemma ft_of_opt {A} (o : option A) c : from_to c (of_opt o) c.
Proof. destruct o; [apply ft_ret|apply ft_throw]. Qed.
Lemma ft_require b c : from_to c (require b) c.
Proof. destruct b; [apply ft_ret|apply ft_throw]. Qed.
Definition tame_handler (h : exn -> st -> exn * st) : Prop := forall e s s', line s = line s' ->
  fst (h e s) = fst (h e s') /\ line (snd (h e s)) = line (snd (h e s')).
Lemma ft_on_err {A} (m : M A) h a b : tame_handler h -> from_to a m b -> from_to a (on_err m h) b.
Proof.
  intros T H s s' R. unfold on_err. specialize (H s s' R). destruct (m s) as [x t|e t|], (m s') as [x' t'|e' t'|]; try contradiction; try exact H.
  destruct H as (<- & L). destruct (T e t t' L) as [T1 T2]. destruct (h e t), (h e t'). split; assumption.
Qed.
Lemma tame_dec : tame_handler h_dec. Proof. intros [] s s' L; cbn; split; congruence. Qed.
Lemma tame_nodec : tame_handler h_nodec. Proof. intros [] s s' L; cbn; split; congruence. Qed.
Lemma tame_tab : tame_handler h_tab. Proof. intros [] s s' L; cbn; split; congruence. Qed.
Lemma tame_std : tame_handler h_std. Proof. intros [] s s' L; cbn; split; congruence. Qed.

Lemma field_75 w : forall c t t', (c + w <= 75)%nat -> first75 c t = first75 c t' ->
  fst (field w t) = fst (field w t') /\
  (exists c1, (c1 <= c + w)%nat /\ first75 c1 (snd (field w t)) = first75 c1 (snd (field w t'))) /\ (mu (snd (field w t)) <= mu t)%nat.
Proof.
  induction w as [|w IH]; intros c t t' L E.
  - destruct t, t'; (split; [reflexivity|split; [exists c; split; [lia|exact E]|apply le_n]]).
  - destruct t as [|a t], t' as [|a' t']; cbn [first75] in E; cbn [field].
    + split; [reflexivity|split; [exists c; split; [lia|reflexivity]|apply le_n]].
    + exfalso. destruct (Ascii.eqb a' LF); [discriminate|]. destruct (Nat.leb_spec 75 c); [lia|discriminate].
    + exfalso. destruct (Ascii.eqb a LF); [discriminate|]. destruct (Nat.leb_spec 75 c); [lia|discriminate].
    + destruct (Nat.leb_spec 75 c); [lia|]. destruct (Ascii.eqb_spec a LF) as [->|N], (Ascii.eqb_spec a' LF) as [->|N'].
      * split; [reflexivity|]. split; [|apply le_n]. exists O. split; [lia|]. cbn [fst snd first75]. rewrite Ascii.eqb_refl. exact E.
      * exfalso. congruence.
      * exfalso. congruence.
      * injection E as -> E. destruct (IH (S c) t t' ltac:(lia) E) as (E1 & (c1 & L1 & E2) & E3).
        destruct (field w t) as [x y], (field w t') as [x' y']. cbn [fst snd] in *. subst x'. split; [reflexivity|].
        split; [exists c1; split; [lia|exact E2]|]. cbn [mu]. destruct (Ascii.eqb_spec a' LF); [contradiction|]. lia.
Qed.
Lemma ft_field w c : (c + w <= 75)%nat -> from_to c (rd_field w) (c + w).
Proof.
  intros L s s' (R & c0 & L0 & E). unfold rd_field. destruct (field_75 w c0 (buf s) (buf s') ltac:(lia) E) as (E1 & (c1 & L1 & E2) & E3).
  destruct (field w (buf s)), (field w (buf s')). cbn [fst snd buf line] in *. split; [exact E1|]. split; [|cbn [buf]; lia].
  split; [exact R|]. exists c1. split; [lia|exact E2].
Qed.
Lemma next_75 t : forall c t', first75 c t = first75 c t' ->
  first75 0 (snd (next_line t)) = first75 0 (snd (next_line t')) /\ (mu (snd (next_line t)) <= mu t)%nat.
Proof.
  assert (Q : forall t c, first75 0 (snd (next_line t)) = snd (next_line (first75 c t))).
  { clear t. induction t as [|a t IH]; intros c; [reflexivity|]. cbn [next_line first75]. destruct (Ascii.eqb a LF) eqn:N.
    - cbn [next_line snd]. rewrite Ascii.eqb_refl. reflexivity.
    - destruct (next_line t) as [l r] eqn:Nl. cbn [snd] in *. destruct (75 <=? c)%nat; [apply IH|].
      cbn [next_line]. rewrite N. rewrite (IH (S c)). destruct (next_line (first75 (S c) t)). reflexivity. }
  intros c t' E. split; [rewrite (Q t c), (Q t' c), E; reflexivity|]. clear. induction t as [|a t IH]; [apply le_n|].
  cbn [next_line mu]. destruct (Ascii.eqb a LF); [cbn [snd]; lia|]. destruct (next_line t). cbn [snd] in *. lia.
Qed.
Lemma ft_eol c : from_to c rd_eol 0.
Proof.
  intros s s' (R & c0 & L0 & E). unfold rd_eol. destruct (next_75 (buf s) c0 (buf s') E) as [E1 E2]. split; [reflexivity|].
  split; [|exact E2]. split; [exact R|]. exists O. split; [lia|exact E1].
Qed.
Lemma ft_inc c : from_to c inc_line c.
Proof. intros s s' (R & R'). split; [reflexivity|]. split; [split; [cbn [line]; congruence|exact R']|cbn [buf]; lia]. Qed.
Lemma skip_75 n : forall c t t', (c + n <= 75)%nat -> first75 c t = first75 c t' ->
  (n <=? length t)%nat = (n <=? length t')%nat /\
  (exists c1, (c1 <= c + n)%nat /\ first75 c1 (skipn n t) = first75 c1 (skipn n t')) /\ (mu (skipn n t) <= mu t)%nat.
Proof.
  induction n as [|n IH]; intros c t t' L E.
  - split; [reflexivity|]. split; [exists c; split; [lia|exact E]|apply le_n].
  - destruct t as [|a t], t' as [|a' t']; cbn [first75] in E; cbn [skipn length Nat.leb mu].
    + split; [reflexivity|split; [exists c; split; [lia|reflexivity]|apply le_n]].
    + exfalso. destruct (Ascii.eqb a' LF); [discriminate|]. destruct (Nat.leb_spec 75 c); [lia|discriminate].
    + exfalso. destruct (Ascii.eqb a LF); [discriminate|]. destruct (Nat.leb_spec 75 c); [lia|discriminate].
    + destruct (Nat.leb_spec 75 c); [lia|]. destruct (Ascii.eqb_spec a LF) as [->|N], (Ascii.eqb_spec a' LF) as [->|N'].
      * injection E as E. destruct (IH O t t' ltac:(lia) E) as (E1 & (c1 & L1 & E2) & E3). split; [exact E1|]. split; [|lia]. exists c1. split; [lia|exact E2].
      * exfalso. congruence.
      * exfalso. congruence.
      * injection E as -> E. destruct (IH (S c) t t' ltac:(lia) E) as (E1 & (c1 & L1 & E2) & E3). split; [exact E1|]. split; [|lia]. exists c1. split; [lia|exact E2].
Qed.
Lemma ft_advance n c : (c + n <= 75)%nat -> from_to c (advance n) (c + n).
Proof.
  intros L s s' (R & c0 & L0 & E). unfold advance. destruct (skip_75 n c0 (buf s) (buf s') ltac:(lia) E) as (E1 & (c1 & L1 & E2) & E3).
  rewrite <- E1. destruct (n <=? length (buf s))%nat; [|exact Logic.I]. split; [reflexivity|]. split; [|exact E3]. split; [exact R|].
  exists c1. split; [lia|exact E2].
Qed.

(** ** The fields and the records *)
Lemma ft_int w c : (c + w <= 75)%nat -> from_to c (rd_int w) (c + w).
Proof. intros L. eapply ft_bind; [apply ft_field, L|intros x; apply ft_of_opt]. Qed.
Lemma ft_real c : (c + 11 <= 75)%nat -> from_to c rd_real (c + 11).
Proof. intros L. eapply ft_bind; [apply ft_field, L|intros x; apply ft_of_opt]. Qed.
Lemma ft_chars w c : (c + w <= 75)%nat -> from_to c (rd_chars w) (c + w).
Proof. intros L. eapply ft_bind; [apply ft_field, L|intros x; apply ft_ret]. Qed.
Lemma ft_tail : from_to 66 rd_tail 0.
Proof.
  unfold rd_tail. eapply ft_bind; [apply ft_int; lia|intros a]. eapply ft_bind; [apply ft_int; lia|intros b]. eapply ft_bind; [apply ft_int; lia|intros c].
  eapply ft_bind; [apply ft_eol|intros _]. eapply ft_bind; [apply ft_inc|intros _]. apply ft_ret.
Qed.
Lemma ft_verify a b c : from_to 66 (verify_tail a b c) 0.
Proof.
  unfold verify_tail. eapply ft_bind; [apply ft_tail|intros [[x y] z]]. eapply ft_bind; [destruct (z =? c); [apply ft_ret|apply ft_throw]|intros _].
  eapply ft_bind; [destruct (y =? b); [apply ft_ret|apply ft_throw]|intros _]. destruct (x =? a); [apply ft_ret|apply ft_throw].
Qed.
Lemma ft_base : from_to 0 rd_base 66.
Proof.
  unfold rd_base. eapply ft_bind; [apply ft_real; lia|intros x1]. eapply ft_bind; [apply ft_real; lia|intros x2]. eapply ft_bind; [apply ft_int; lia|intros x3].
  eapply ft_bind; [apply ft_int; lia|intros x4]. eapply ft_bind; [apply ft_int; lia|intros x5]. eapply ft_bind; [apply ft_int; lia|intros x6]. apply ft_ret.
Qed.
Lemma ft_rd_n {A} (m : M A) w : (forall c, (c + w <= 75)%nat -> from_to c m (c + w)) -> forall n c, (c + n * w <= 75)%nat -> from_to c (rd_n m n) (c + n * w).
Proof.
  intros H n. induction n as [|n IH]; intros c L; cbn [rd_n].
  - eapply (ft_le _ c c c); [lia|lia|apply ft_ret].
  - cbn [Nat.mul] in *. eapply ft_bind; [apply H; lia|intros x]. eapply ft_bind; [apply IH; lia|intros xs].
    eapply (ft_le _ (c + w + n * w) (c + w + n * w) (c + w + n * w)); [lia|lia|apply ft_ret].
Qed.
Lemma rl_rd_n {A} (m : M A) n : rl m -> rl (rd_n m n).
Proof.
  intros H. induction n as [|n IH]; cbn [rd_n]; [apply ft_ret|]. eapply ft_bind; [exact H|intros x]. eapply ft_bind; [exact IH|intros xs]. apply ft_ret.
Qed.
Lemma ft_leftover {A} (m : M A) (d : A -> bool) w : (forall c, (c + w <= 75)%nat -> from_to c m (c + w)) -> forall n c, (c + n * w <= 75)%nat -> from_to c (rd_leftover m d n) (c + n * w).
Proof.
  intros H n. induction n as [|n IH]; intros c L; cbn [rd_leftover].
  - eapply (ft_le _ c c c); [lia|lia|apply ft_ret].
  - cbn [Nat.mul] in *. eapply ft_bind; [apply H; lia|intros x]. eapply ft_bind; [apply ft_require|intros _].
    eapply (ft_le _ (c + w) _ (c + w + n * w)); [lia|lia|apply IH; lia].
Qed.
Lemma rl_unzip {A} (m : M A) d k w mat mf mt n : (forall c, (c + w <= 75)%nat -> from_to c m (c + w)) -> (0 < k)%nat -> (k * w <= 66)%nat ->
  rl (unzip m d k mat mf mt n).
Proof.
  intros H K L.
  assert (Z1 : rl (rd_zline m k mat mf mt)).
  { unfold rd_zline. eapply ft_bind; [apply (ft_rd_n m w H); lia|intros xs]. eapply ft_bind; [eapply (ft_le _ 66 _ 0); [lia|lia|apply ft_verify]|intros _]. apply ft_ret. }
  assert (Z2 : forall q, rl (rd_zlines m k mat mf mt q)).
  { induction q as [|q IH]; cbn [rd_zlines]; [apply ft_ret|]. eapply ft_bind; [exact Z1|intros xs]. eapply ft_bind; [exact IH|intros ys]. apply ft_ret. }
  unfold unzip. eapply ft_bind; [apply Z2|intros xs]. destruct (n mod k =? 0)%nat; [apply ft_ret|]. eapply ft_bind; [|intros ys; apply ft_ret].
  assert (N : (n mod k < k)%nat) by (apply Nat.mod_upper_bound; lia). set (r := (n mod k)%nat) in *. unfold rd_zpartial.
  eapply ft_bind; [apply (ft_rd_n m w H); nia|intros zs].
  eapply ft_bind; [apply (ft_leftover m d w H); nia|intros _].
  eapply ft_bind; [eapply (ft_le _ 66 _ 0); [nia|lia|apply ft_verify]|intros _]. apply ft_ret.
Qed.

Lemma rl_cont a b c : rl (rd_cont a b c).
Proof.
  apply ft_on_err; [apply tame_dec|]. eapply ft_bind; [apply ft_base|intros x]. eapply ft_bind; [apply ft_verify|intros _]. apply ft_ret.
Qed.
Lemma rl_text a b c : rl (rd_text a b c).
Proof.
  apply ft_on_err; [apply tame_dec|]. eapply ft_bind; [apply ft_chars; lia|intros x]. eapply ft_bind; [apply ft_verify|intros _]. apply ft_ret.
Qed.
Lemma rl_dir a b c : rl (rd_dir a b c).
Proof.
  apply ft_on_err; [apply tame_dec|]. eapply ft_bind; [apply ft_int; lia|intros x1]. eapply ft_bind; [apply ft_int; lia|intros x2].
  eapply ft_bind; [apply ft_int; lia|intros x3]. eapply ft_bind; [apply ft_int; lia|intros x4]. eapply ft_bind; [apply ft_verify|intros _]. apply ft_ret.
Qed.
Lemma rl_tpid : rl rd_tpid.
Proof.
  apply ft_on_err; [apply tame_dec|]. eapply ft_bind; [apply ft_chars; lia|intros x]. eapply ft_bind; [apply ft_tail|intros [[m f] s]].
  eapply ft_bind; [destruct (s =? 0); [apply ft_ret|apply ft_throw]|intros _]. eapply ft_bind; [destruct (f =? 0); [apply ft_ret|apply ft_throw]|intros _]. apply ft_ret.
Qed.
Lemma rl_sdiv : rl rd_sdiv.
Proof.
  apply ft_on_err; [apply tame_nodec|]. eapply ft_bind; [apply ft_base|intros x]. eapply ft_bind; [apply ft_tail|intros [[m f] s]].
  eapply ft_bind; [apply ft_require|intros _]. eapply ft_bind; [apply ft_require|intros _]. eapply ft_bind; [apply ft_require|intros _]. apply ft_ret.
Qed.
Lemma rl_skip : rl rd_skip.
Proof. eapply ft_bind; [apply ft_chars; lia|intros x]. apply ft_tail. Qed.
Lemma rl_list a b c : rl (rd_list a b c).
Proof.
  apply ft_on_err; [apply tame_nodec|]. eapply ft_bind; [apply ft_on_err; [apply tame_std|]|intros x].
  - eapply ft_bind; [apply ft_base|intros x]. eapply ft_bind; [apply ft_verify|intros _]. eapply ft_bind; [apply ft_require|intros _]. apply ft_ret.
  - eapply ft_bind; [apply (rl_unzip _ _ _ 11); [intros; apply ft_real; lia|lia|lia]|intros l]. apply ft_ret.
Qed.
Lemma ft_pair_int c : (c + 22 <= 75)%nat -> from_to c rd_pair_int (c + 22).
Proof.
  intros L. eapply ft_bind; [apply ft_int; lia|intros x]. eapply ft_bind; [apply ft_int; lia|intros y].
  eapply (ft_le _ (c + 22) _ (c + 22)); [lia|lia|apply ft_ret].
Qed.
Lemma ft_pair_real c : (c + 22 <= 75)%nat -> from_to c rd_pair_real (c + 22).
Proof.
  intros L. eapply ft_bind; [apply ft_real; lia|intros x]. eapply ft_bind; [apply ft_real; lia|intros y].
  eapply (ft_le _ (c + 22) _ (c + 22)); [lia|lia|apply ft_ret].
Qed.
Lemma rl_ibase a b c : rl (rd_ibase a b c).
Proof.
  unfold rd_ibase. eapply ft_bind; [apply ft_base|intros x]. eapply ft_bind; [apply ft_verify|intros _]. eapply ft_bind; [apply ft_require|intros _].
  eapply ft_bind; [destruct (n2 x <? 0); [apply ft_throw|apply ft_ret]|intros _].
  eapply ft_bind; [apply ft_on_err; [apply tame_std|]|intros ps].
  - eapply ft_bind; [apply (rl_unzip _ _ _ 22); [apply ft_pair_int|lia|lia]|intros l]. eapply ft_bind; [apply ft_require|intros _]. apply ft_ret.
  - eapply ft_bind; [apply ft_lift|intros t]. eapply ft_bind; [destruct (n2 x =? tn2 t); [apply ft_ret|apply ft_throw]|intros _]. apply ft_ret.
Qed.
Lemma rl_tab2 a b c : rl (rd_tab2 a b c).
Proof. apply ft_on_err; [apply tame_tab|apply rl_ibase]. Qed.
Lemma rl_tab1 a b c : rl (rd_tab1 a b c).
Proof.
  apply ft_on_err; [apply tame_tab|]. eapply ft_bind; [apply rl_ibase|intros x]. eapply ft_bind; [apply ft_on_err; [apply tame_std|]|intros ps; apply ft_ret].
  eapply ft_bind; [apply (rl_unzip _ _ _ 22); [apply ft_pair_real|lia|lia]|intros l]. eapply ft_bind; [apply ft_require|intros _]. apply ft_ret.
Qed.
Lemma intg_width nd : (11 + 0 <= 75 /\ 10 + intg_lead nd + intg_cap nd * (nd + 1) + intg_gap nd <= 66)%nat.
Proof. split; [lia|]. do 7 (destruct nd as [|nd]; [cbn; lia|]). cbn. lia. Qed.
Lemma rl_intg nd a b c : rl (rd_intg nd (intg_cap nd) a b c).
Proof.
  destruct (intg_width nd) as [_ W]. apply ft_on_err; [apply tame_nodec|]. eapply ft_bind; [apply ft_int; lia|intros i]. eapply ft_bind; [apply ft_int; lia|intros j].
  eapply ft_bind; [apply ft_advance; lia|intros _]. eapply ft_bind; [apply (ft_rd_n _ (nd + 1)); [intros; apply ft_int; lia|lia]|intros ks].
  eapply ft_bind; [apply ft_advance; lia|intros _]. eapply ft_bind; [apply ft_lift|intros r].
  eapply ft_bind; [eapply (ft_le _ 66 _ 0); [lia|lia|apply ft_verify]|intros _]. apply ft_ret.
Qed.

(** ** The sections *)
Lemma rl_bind {A B} (m : M A) (f : A -> M B) : rl m -> (forall x, rl (f x)) -> rl (bind m f).
Proof. apply ft_bind. Qed.
Lemma rl_lib c h mat : rl (Sections.rd_section (skind_of c) h mat).
Proof.
  exact (Keeps.rl_lib (rel 0) (fun s s' R => proj1 R) rl_cont rl_text rl_dir rl_sdiv rl_list rl_tab1 rl_tab2 true (fun _ nd _ => rl_intg nd) c h mat (fun _ => eq_refl)).
Qed.

(** ** Typed files, materials and tapes *)
Lemma rel_sym c s s' : rel c s s' -> rel c s' s.
Proof. intros (H & c0 & L & E). split; [auto|]. exists c0. auto. Qed.
Lemma empty_rel s s' : rel 0 s s' -> buf s = [] -> s' = s.
Proof.
  intros R E. apply rel0 in R. destruct R as (H & K). unfold same75 in K. destruct s as [b l], s' as [b' l']. cbn [buf line] in *. subst b l'.
  destruct b' as [|a b']; [reflexivity|]. cbn [first75 Nat.leb] in K. destruct (Ascii.eqb a LF); discriminate.
Qed.
Lemma rl_any mf d : rl (rd_any skind_of lib_class mf d).
Proof. unfold rd_any. destruct (lib_class mf (smt d)) as [c|]; [|apply ft_throw]. apply rl_bind; [apply rl_lib|intros x]. apply ft_ret. Qed.
Lemma rl_yfile mf d : rl (rd_yfile skind_of lib_class mf d).
Proof. exact (KeepsTree.rl_yfile (rel 0) (fun s s' R => proj1 R) (rel_sym 0) empty_rel rl_sdiv rl_skip rl_any mf d). Qed.
Lemma rl_ymat d : rl (rd_ymat skind_of lib_class d).
Proof. exact (KeepsTree.rl_ymat (rel 0) (fun s s' R => proj1 R) (rel_sym 0) empty_rel rl_sdiv rl_skip rl_any d). Qed.
Lemma rl_ytape : rl (rd_ytape skind_of lib_class).
Proof. exact (KeepsTree.rl_ytape (rel 0) (fun s s' R => proj1 R) (rel_sym 0) empty_rel rl_sdiv rl_skip rl_tpid rl_any). Qed.

(** ** C74 *)
Lemma rl_alike {A} (m : M A) : rl m -> forall t t' ln, same75 t t' -> alike (m (mkst t ln)) (m (mkst t' ln)).
Proof.
  intros H t t' ln E. assert (R : rel 0 (mkst t ln) (mkst t' ln)) by (apply rel0; split; [reflexivity|exact E]). specialize (H _ _ R). unfold alike.
  destruct (m (mkst t ln)), (m (mkst t' ln)); try contradiction; try exact H. destruct H as (E1 & R1 & _). apply rel0 in R1. tauto.
Qed.
(** The records: two texts whose lines agree in the first 75 columns are read alike *)
Theorem C74_records : forall t t' ln, same75 t t' ->
  alike (rd_tpid (mkst t ln)) (rd_tpid (mkst t' ln)) /\ alike (rd_sdiv (mkst t ln)) (rd_sdiv (mkst t' ln))
  /\ forall mat mf mt,
     alike (rd_cont mat mf mt (mkst t ln)) (rd_cont mat mf mt (mkst t' ln))
     /\ alike (rd_text mat mf mt (mkst t ln)) (rd_text mat mf mt (mkst t' ln))
     /\ alike (rd_dir mat mf mt (mkst t ln)) (rd_dir mat mf mt (mkst t' ln))
     /\ alike (rd_list mat mf mt (mkst t ln)) (rd_list mat mf mt (mkst t' ln))
     /\ alike (rd_tab1 mat mf mt (mkst t ln)) (rd_tab1 mat mf mt (mkst t' ln))
     /\ alike (rd_tab2 mat mf mt (mkst t ln)) (rd_tab2 mat mf mt (mkst t' ln))
     /\ forall nd, alike (rd_intg nd (intg_cap nd) mat mf mt (mkst t ln)) (rd_intg nd (intg_cap nd) mat mf mt (mkst t' ln)).
Proof.
  intros t t' ln E. split; [now apply rl_alike; [apply rl_tpid|]|]. split; [now apply rl_alike; [apply rl_sdiv|]|]. intros a b c.
  split; [now apply rl_alike; [apply rl_cont|]|]. split; [now apply rl_alike; [apply rl_text|]|]. split; [now apply rl_alike; [apply rl_dir|]|].
  split; [now apply rl_alike; [apply rl_list|]|]. split; [now apply rl_alike; [apply rl_tab1|]|]. split; [now apply rl_alike; [apply rl_tab2|]|].
  intros nd. now apply rl_alike; [apply rl_intg|].
Qed.
(** a section of any class, with or without its HEAD record *)
Theorem C74_section : forall c h mat t t' ln, same75 t t' ->
  alike (Sections.rd_section (skind_of c) h mat (mkst t ln)) (Sections.rd_section (skind_of c) h mat (mkst t' ln)).
Proof. intros c h mat t t' ln. apply rl_alike, rl_lib. Qed.
Theorem C74_parse : forall c mat t t' ln, same75 t t' ->
  alike (parse_section (skind_of c) mat (mkst t ln)) (parse_section (skind_of c) mat (mkst t' ln)).
Proof. intros c mat t t' ln. apply rl_alike. unfold parse_section. apply rl_bind; [apply rl_sdiv|intros h]. apply rl_lib. Qed.
(** a file, a material, a tape *)
Theorem C74_file : forall mf t t' ln, same75 t t' ->
  alike (parse_yfile skind_of lib_class mf (mkst t ln)) (parse_yfile skind_of lib_class mf (mkst t' ln)).
Proof. intros mf t t' ln. apply rl_alike. unfold parse_yfile. apply rl_bind; [apply rl_sdiv|intros h]. apply rl_yfile. Qed.
Theorem C74_material : forall t t' ln, same75 t t' ->
  alike (parse_ymat skind_of lib_class (mkst t ln)) (parse_ymat skind_of lib_class (mkst t' ln)).
Proof. intros t t' ln. apply rl_alike. unfold parse_ymat. apply rl_bind; [apply rl_sdiv|intros h]. apply rl_ymat. Qed.
Theorem C74_tape : forall t t' ln, same75 t t' ->
  alike (rd_ytape skind_of lib_class (mkst t ln)) (rd_ytape skind_of lib_class (mkst t' ln)).
Proof. intros t t' ln. apply rl_alike, rl_ytape. Qed.
(** What [same75] says of texts that are written as lines *)
Lemma first75_line l r : forall c, noLF l -> (c <= 75)%nat -> first75 c (l ++ LF :: r) = firstn (75 - c) l ++ LF :: first75 0 r.
Proof.
  induction l as [|a l IH]; intros c N L.
  - cbn [app first75]. rewrite Ascii.eqb_refl, firstn_nil. reflexivity.
  - cbn [app first75]. destruct (Ascii.eqb_spec a LF) as [->|Na]; [destruct (N (or_introl eq_refl))|].
    assert (N' : noLF l) by (intros I1; apply N; now right). destruct (Nat.leb_spec 75 c) as [H|H].
    + replace (75 - c)%nat with 0%nat by lia. cbn [firstn app]. clear - N' H. revert c H. induction l as [|b l IH]; intros c H; cbn [app first75]; [rewrite Ascii.eqb_refl; reflexivity|].
      destruct (Ascii.eqb_spec b LF) as [->|Nb]; [destruct (N' (or_introl eq_refl))|]. destruct (Nat.leb_spec 75 (S c)); [|lia]. apply IH; [intros I1; apply N'; now right|lia].
    + rewrite IH by (assumption || lia). replace (75 - c)%nat with (S (75 - S c)) by lia. reflexivity.
Qed.
Theorem C74_lines : forall ls ls', Forall noLF ls -> Forall noLF ls' ->
  same75 (lines_text ls) (lines_text ls') <-> Forall2 (fun l l' => firstn 75 l = firstn 75 l') ls ls'.
Proof.
  assert (K : forall l l' r r', noLF l -> noLF l' -> l ++ LF :: r = l' ++ LF :: r' -> l = l' /\ r = r').
  { induction l as [|a l IH]; intros [|a' l'] r r' N N' E; cbn [app] in E.
    - injection E as E. auto.
    - injection E as <- E. destruct (N' (or_introl eq_refl)).
    - injection E as -> E. destruct (N (or_introl eq_refl)).
    - injection E as -> E. destruct (IH l' r r') as (-> & ->); auto; intros I1; [apply N|apply N']; now right. }
  assert (F1 : forall l : text, noLF l -> noLF (firstn 75 l)). { intros l N I1. apply N. rewrite <- (firstn_skipn 75 l). apply in_or_app. now left. }
  induction ls as [|l ls IH]; intros [|l' ls'] N N'; unfold same75.
  - split; [constructor|reflexivity].
  - rewrite text_cons. inversion N'; subst. rewrite (first75_line l' _ 0) by (assumption || lia). split; [|intros H; inversion H].
    intros E. exfalso. change (first75 0 (lines_text [])) with (@nil ascii) in E. destruct (firstn (75 - 0) l'); discriminate.
  - rewrite text_cons. inversion N; subst. rewrite (first75_line l _ 0) by (assumption || lia). split; [|intros H; inversion H].
    intros E. exfalso. change (first75 0 (lines_text [])) with (@nil ascii) in E. destruct (firstn (75 - 0) l); discriminate.
  - inversion N; inversion N'; subst. rewrite !text_cons, !first75_line by (assumption || lia). change (75 - 0)%nat with 75%nat. split.
    + intros E. apply K in E; [|now apply F1|now apply F1]. destruct E as (E & E'). constructor; [exact E|]. apply IH; assumption.
    + intros H. inversion H; subst. match goal with X : firstn 75 l = _ |- _ => rewrite X end. f_equal. f_equal. apply IH; assumption.
Qed.
(** the text without the columns after 75 *)
Lemma first75_idem t : forall c, first75 c (first75 c t) = first75 c t.
Proof.
  assert (G : forall t c d, (75 <= c)%nat -> (75 <= d)%nat -> first75 c t = first75 d t).
  { induction t0 as [|a t0 IH]; intros c d Hc Hd; [reflexivity|]. cbn [first75]. destruct (Ascii.eqb a LF); [reflexivity|].
    destruct (Nat.leb_spec 75 c), (Nat.leb_spec 75 d); try lia. apply IH; lia. }
  induction t as [|a t IH]; intros c; [reflexivity|]. cbn [first75]. destruct (Ascii.eqb a LF) eqn:N; [cbn [first75]; rewrite Ascii.eqb_refl, IH; reflexivity|].
  destruct (75 <=? c)%nat eqn:L; [|cbn [first75]; rewrite N, L, IH; reflexivity].
  assert (Hc : (75 <= c)%nat) by lia. rewrite (G t (S c) c) by lia. apply IH.
Qed.
Corollary C74_trimmed : forall t ln,
  alike (rd_ytape skind_of lib_class (mkst t ln)) (rd_ytape skind_of lib_class (mkst (first75 0 t) ln)).
Proof. intros t ln. apply C74_tape. unfold same75. symmetry. apply first75_idem. Qed.
(** a tape of 36 lines with and without sequence numbers *)
Definition numbered (ls : list text) : list text := map (fun p => firstn 75 (snd p) ++ rj 5 (show (Z.of_nat (fst p)))) (combine (seq 1 (length ls)) ls).
Example C74_example : Forall (fun l => length l = 80%nat) (numbered cut_t) /\ numbered cut_t <> cut_t
  /\ exists s, rd_ytape skind_of lib_class (mkst (lines_text (numbered cut_t)) 0) = Ok ex_tape s.
Proof.
  split; [repeat constructor|]. split; [intros E; apply (f_equal (fun l => nth_error l 0)) in E; vm_compute in E; discriminate|].
  assert (Q : same75 (lines_text cut_t) (lines_text (numbered cut_t))) by (vm_compute; reflexivity).
  assert (K := C74_tape _ _ 0 Q). destruct C41_typed_tape_example as (_ & E & _). rewrite E in K.
  destruct (rd_ytape skind_of lib_class (mkst (lines_text (numbered cut_t)) 0)) as [y s|e s|]; [|contradiction|contradiction].
  destruct K as (<- & _). exists s. reflexivity.
Qed.
(** column 75 does count: it is the last column of MT *)
Example C74_refuted : exists l l' c s, firstn 74 l = firstn 74 l' /\ rd_cont 9228 1 451 (mkst (l ++ [LF]) 0) = Ok c s
  /\ rd_cont 9228 1 451 (mkst (l' ++ [LF]) 0) = Err EStd (mkst [] 0).
Proof.
  exists (pr_base zero_cont ++ pr_int 4 9228 ++ pr_int 2 1 ++ pr_int 3 451), (pr_base zero_cont ++ pr_int 4 9228 ++ pr_int 2 1 ++ pr_int 3 452), zero_cont, (mkst [] 1).
  split; [vm_compute; reflexivity|]. split; vm_compute; reflexivity.
Qed.
