(** Base.v -- texts, exceptions, and the reader state machine.

    The C++ readers of ENDFtk take an iterator [it] into the text, the [end]
    iterator and a [long& lineNumber] and either return a value or throw
    (e.g. /repo/src/ENDFtk/ControlRecord.hpp:84-101).  Here the text between
    [it] and [end] is the [buf] component of the state. *)
From Coq Require Export List Ascii Arith ZArith Lia Bool.
Export ListNotations.
Open Scope list_scope.

Global Arguments Z.mul : simpl never.
Global Arguments Z.add : simpl never.
Global Arguments Z.sub : simpl never.
Global Arguments Z.opp : simpl never.
Global Arguments Z.pow : simpl never.
Global Arguments Z.div : simpl never.
Global Arguments Z.modulo : simpl never.
Global Arguments Z.of_nat : simpl never.

(** not code: texts are lists of characters *)
Definition text := list ascii.

(** newline and blank characters *)
(** not code: texts are lists of characters *)
Definition LF : ascii := "010"%char.
(** not code: texts are lists of characters *)
Definition SP : ascii := " "%char.
(** not code: texts are lists of characters *)
Definition blanks (n : nat) : text := repeat SP n.

(** Exception types that occur in the C++ sources.
    [EStd]: std::exception (or sliced from a derived class);
    [EOor]: std::out_of_range (thrown by std::map::at and the tree look-ups);
    [EInt n]: a thrown int (record/TailVerifying.hpp:35);
    [EIllegalN2], [EInconsistentN2]: the tag structs of
    record/InterpolationBase/src/verifyN2.hpp:1-7 and
    record/InterpolationBase.hpp:1-116. *)
Inductive exn := EStd | EOor | EInt (n : Z) | EIllegalN2 | EInconsistentN2.

(** Does [catch( std::exception& )] catch it?  (std::out_of_range derives from
    std::exception; ints and the tag structs do not.) *)
(** not code: the readers take an iterator, its end and a line counter, e.g. ControlRecord.hpp:66-101 *)
Definition is_std (e : exn) : bool :=
  match e with EStd | EOor => true | _ => false end.

(** not code: the readers take an iterator, its end and a line counter, e.g. ControlRecord.hpp:66-101 *)
Record st := mkst { buf : text; line : Z }.

(** [UB]: the C++ code has undefined behaviour on this input. *)
(** not code: the readers take an iterator, its end and a line counter, e.g. ControlRecord.hpp:66-101 *)
Inductive res (A : Type) :=
| Ok (a : A) (s : st)
| Err (e : exn) (s : st)
| UB.
Arguments Ok {A}. Arguments Err {A}. Arguments UB {A}.

(** not code: the readers take an iterator, its end and a line counter, e.g. ControlRecord.hpp:66-101 *)
Definition M (A : Type) := st -> res A.

(** not code: the readers take an iterator, its end and a line counter, e.g. ControlRecord.hpp:66-101 *)
Definition ret {A} (a : A) : M A := fun s => Ok a s.
(** not code: the readers take an iterator, its end and a line counter, e.g. ControlRecord.hpp:66-101 *)
Definition throw {A} (e : exn) : M A := fun s => Err e s.
(** not code: the readers take an iterator, its end and a line counter, e.g. ControlRecord.hpp:66-101 *)
Definition undef {A} : M A := fun _ => UB.
(** not code: the readers take an iterator, its end and a line counter, e.g. ControlRecord.hpp:66-101 *)
Definition bind {A B} (m : M A) (f : A -> M B) : M B :=
  fun s => match m s with
           | Ok a s' => f a s'
           | Err e s' => Err e s'
           | UB => UB
           end.
Notation "x <- m ;; k" := (bind m (fun x => k))
  (at level 61, m at next level, right associativity).
Notation "' p <- m ;; k" := (bind m (fun x => match x with p => k end))
  (at level 61, p pattern, m at next level, right associativity).
Notation "m ;;; k" := (bind m (fun _ => k)) (at level 61, right associativity).

(** [if( not cond ) throw std::exception()] *)
(** not code: the readers take an iterator, its end and a line counter, e.g. ControlRecord.hpp:66-101 *)
Definition require (b : bool) : M unit := if b then ret tt else throw EStd.

(** catch handlers; [h] maps the caught exception and the state to the rethrown
    exception and state *)
(** not code: the readers take an iterator, its end and a line counter, e.g. ControlRecord.hpp:66-101 *)
Definition on_err {A} (m : M A) (h : exn -> st -> exn * st) : M A :=
  fun s => match m s with
           | Ok a s' => Ok a s'
           | Err e s' => let (e', s'') := h e s' in Err e' s''
           | UB => UB
           end.

(** not code: the readers take an iterator, its end and a line counter, e.g. ControlRecord.hpp:66-101 *)
Definition inc_line : M unit := fun s => Ok tt (mkst (buf s) (line s + 1)%Z).
(** not code: the readers take an iterator, its end and a line counter, e.g. ControlRecord.hpp:66-101 *)
Definition dec_line : M unit := fun s => Ok tt (mkst (buf s) (line s - 1)%Z).

(** ** Lines *)

(** the text up to (not including) the next newline, and what follows it *)
(** not code: lines of a text and what a reader does to it (used in statements) *)
Fixpoint next_line (t : text) : text * text :=
  match t with
  | [] => ([], [])
  | c :: t' => if Ascii.eqb c LF then ([], t')
               else let (l, r) := next_line t' in (c :: l, r)
  end.

(** columns a+1 .. a+n of a line *)
(** not code: lines of a text and what a reader does to it (used in statements) *)
Definition col (a n : nat) (l : text) : text := firstn n (skipn a l).

(** not code: lines of a text and what a reader does to it (used in statements) *)
Definition noLF (t : text) : Prop := ~ In LF t.

(** [splits b ls r]: the first [length ls] lines of [b] are [ls], [r] follows *)
(** not code: lines of a text and what a reader does to it (used in statements) *)
Fixpoint splits (b : text) (ls : list text) (r : text) : Prop :=
  match ls with
  | [] => b = r
  | l :: ls' => exists b', next_line b = (l, b') /\ splits b' ls' r
  end.

(** ** Round-trip and soundness judgements used throughout

    [reads m t a k]: on any text starting with [t], reader [m] returns [a],
    consumes exactly [t] and advances the line counter by [k]. *)
(** not code: lines of a text and what a reader does to it (used in statements) *)
Definition reads {A} (m : M A) (t : text) (a : A) (k : Z) : Prop :=
  forall rest ln, m (mkst (t ++ rest) ln) = Ok a (mkst rest (ln + k)%Z).

Lemma reads_ret {A} (a : A) : reads (ret a) [] a 0.
Proof. intros r ln. unfold ret. simpl. now rewrite Z.add_0_r. Qed.

Lemma reads_bind {A B} (m : M A) (f : A -> M B) t t' a b k k' :
  reads m t a k -> reads (f a) t' b k' -> reads (bind m f) (t ++ t') b (k + k').
Proof.
  intros H1 H2 r ln. unfold bind. rewrite <- app_assoc, H1, H2.
  now rewrite Z.add_assoc.
Qed.

Lemma reads_bind0 {A B} (m : M A) (f : A -> M B) t a b k k' :
  reads m [] a k -> reads (f a) t b k' -> reads (bind m f) t b (k + k').
Proof. intros H1 H2. apply (reads_bind m f [] t a b k k' H1 H2). Qed.

Lemma reads_bind_ret {A B} (m : M A) (f : A -> B) t a k :
  reads m t a k -> reads (bind m (fun x => ret (f x))) t (f a) k.
Proof. intros H r ln. unfold bind, ret. now rewrite H. Qed.

Lemma reads_require (b : bool) : b = true -> reads (require b) [] tt 0.
Proof. intros ->. apply reads_ret. Qed.

Lemma reads_require_bind {B} (b : bool) (f : unit -> M B) t x k :
  b = true -> reads (f tt) t x k -> reads (bind (require b) f) t x k.
Proof. intros -> H r ln. unfold bind, require, ret. apply H. Qed.

Lemma reads_eq {A} (m : M A) t t' a a' k k' :
  reads m t a k -> t = t' -> a = a' -> k = k' -> reads m t' a' k'.
Proof. now intros H <- <- <-. Qed.

Lemma reads_on_err {A} (m : M A) h t a k :
  reads m t a k -> reads (on_err m h) t a k.
Proof. intros H r ln. unfold on_err. now rewrite H. Qed.

(** on any text that begins with these lines the result is the same *)
(** not code: lines of a text and what a reader does to it (used in statements) *)
Definition same_from {A} (ls : list text) (m : M A) (a : A) : Prop :=
  forall b r ln, splits b ls r -> m (mkst b ln) = Ok a (mkst r (ln + Z.of_nat (length ls))%Z).
(** [consumes P m]: whenever [m] succeeds, what it consumed is a whole number of
    lines, as many as the line counter advanced, all satisfying [P]; what follows
    them has no influence. *)
(** not code: lines of a text and what a reader does to it (used in statements) *)
Definition consumes {A} (P : text -> Prop) (m : M A) : Prop :=
  forall s a s', m s = Ok a s' ->
    exists ls, splits (buf s) ls (buf s')
               /\ (line s' = line s + Z.of_nat (length ls))%Z
               /\ Forall P ls /\ same_from ls m a.

(** [only_std m]: whatever the text, [m] returns or throws a std::exception;
    no other C++ type escapes and no undefined behaviour occurs. *)
(** not code: lines of a text and what a reader does to it (used in statements) *)
Definition only_std {A} (m : M A) : Prop :=
  forall s, match m s with
            | Ok _ _ => True
            | Err e _ => is_std e = true
            | UB => False
            end.

Lemma splits_app b ls ls' r r' :
  splits b ls r -> splits r ls' r' -> splits b (ls ++ ls') r'.
Proof.
  revert b. induction ls as [|l ls IH]; intros b H H'; simpl in *.
  - now subst.
  - destruct H as (b' & E & H). exists b'. eauto.
Qed.

Lemma splits_inv b ls ls' r :
  splits b (ls ++ ls') r -> exists r1, splits b ls r1 /\ splits r1 ls' r.
Proof.
  revert b. induction ls as [|l ls IH]; intros b H; simpl in *; [eauto|].
  destruct H as (b' & E & H). destruct (IH _ H) as (r1 & K1 & K2). eauto 6.
Qed.

Lemma consumes_ret {A} P (a : A) : consumes P (ret a).
Proof.
  intros s x s' H. inversion H; subst. exists []. simpl.
  repeat split; auto; [lia|]. intros b r ln E. cbn in E. subst. unfold ret. do 2 f_equal. cbn. lia.
Qed.

Lemma consumes_throw {A} P e : consumes P (@throw A e).
Proof. intros s x s' H. discriminate. Qed.

Lemma consumes_bind {A B} P (m : M A) (f : A -> M B) :
  consumes P m -> (forall a, consumes P (f a)) -> consumes P (bind m f).
Proof.
  intros H1 H2 s b s'' H. unfold bind in H.
  destruct (m s) as [a s'|e s'|] eqn:E; try discriminate.
  destruct (H1 _ _ _ E) as (l1 & S1 & L1 & F1 & D1).
  destruct (H2 a _ _ _ H) as (l2 & S2 & L2 & F2 & D2).
  exists (l1 ++ l2). split; [eapply splits_app; eauto|].
  rewrite app_length, Forall_app. split; [lia|]. split; [auto|].
  intros t r ln K. apply splits_inv in K. destruct K as (r1 & K1 & K2).
  unfold bind. rewrite (D1 _ _ _ K1), (D2 _ _ _ K2), app_length. do 2 f_equal. lia.
Qed.

Lemma consumes_require P b : consumes P (require b).
Proof. destruct b; [apply consumes_ret|apply consumes_throw]. Qed.

Lemma consumes_on_err {A} P (m : M A) h : consumes P m -> consumes P (on_err m h).
Proof.
  intros H s a s' E. unfold on_err in E.
  destruct (m s) as [x s1|e s1|] eqn:E1; try discriminate.
  - inversion E; subst. destruct (H _ _ _ E1) as (ls & S & L & F & D). exists ls. repeat (split; [assumption|]).
    intros b r ln K. unfold on_err. now rewrite (D _ _ _ K).
  - destruct (h e s1); discriminate.
Qed.

Lemma consumes_weaken {A} (P Q : text -> Prop) (m : M A) :
  (forall l, P l -> Q l) -> consumes P m -> consumes Q m.
Proof.
  intros HPQ H s a s' E. destruct (H _ _ _ E) as (ls & S & L & F & D).
  exists ls. split; [exact S|split;[exact L|split; [eapply Forall_impl; eauto|exact D]]].
Qed.

Lemma only_std_ret {A} (a : A) : only_std (ret a).
Proof. intros s. exact I. Qed.
Lemma only_std_throw {A} e : is_std e = true -> only_std (@throw A e).
Proof. intros H s. exact H. Qed.
Lemma only_std_bind {A B} (m : M A) (f : A -> M B) :
  only_std m -> (forall a, only_std (f a)) -> only_std (bind m f).
Proof.
  intros H1 H2 s. unfold bind. specialize (H1 s).
  destruct (m s) as [a s'|e s'|]; auto. apply H2.
Qed.
Lemma only_std_require b : only_std (require b).
Proof. destruct b; [apply only_std_ret|now apply only_std_throw]. Qed.

(** success inversion *)
Lemma bind_ok {A B} (m : M A) (f : A -> M B) s b s'' :
  bind m f s = Ok b s'' -> exists a s', m s = Ok a s' /\ f a s' = Ok b s''.
Proof. unfold bind. destruct (m s) as [a s'|e s'|]; try discriminate. eauto. Qed.

Lemma require_ok b s u s' : require b s = Ok u s' -> b = true /\ s' = s.
Proof. destruct b; simpl; intros H; inversion H; auto. Qed.

Lemma on_err_ok {A} (m : M A) h s a s' :
  on_err m h s = Ok a s' <-> m s = Ok a s'.
Proof.
  unfold on_err. destruct (m s) as [x s1|e s1|]; try tauto.
  destruct (h e s1). split; discriminate.
Qed.

(** ** Facts about lines *)

Lemma eqb_LF c : Ascii.eqb c LF = true <-> c = LF.
Proof. apply Ascii.eqb_eq. Qed.

Lemma next_line_app l r : noLF l -> next_line (l ++ LF :: r) = (l, r).
Proof.
  unfold noLF. induction l as [|c l IH]; intros H; simpl.
  - reflexivity.
  - destruct (Ascii.eqb c LF) eqn:E.
    + apply eqb_LF in E. subst. elim H. now left.
    + rewrite IH; auto. intros K. apply H. now right.
Qed.

Lemma next_line_noLF t : noLF (fst (next_line t)).
Proof.
  unfold noLF. induction t as [|c t IH]; simpl; auto.
  destruct (Ascii.eqb c LF) eqn:E; simpl; auto.
  destruct (next_line t) as [l r]. simpl in *. intros [H|H]; auto.
  subst. rewrite Ascii.eqb_refl in E. discriminate.
Qed.

Lemma next_line_cases t l r :
  next_line t = (l, r) -> (t = l ++ LF :: r) \/ (t = l /\ r = []).
Proof.
  revert l r. induction t as [|c t IH]; intros l r H; simpl in H.
  - inversion H; subst. now right.
  - destruct (Ascii.eqb c LF) eqn:E.
    + apply eqb_LF in E. inversion H; subst. now left.
    + destruct (next_line t) as [l' r']. inversion H; subst.
      destruct (IH _ _ eq_refl) as [K|[K1 K2]]; subst; simpl; auto.
Qed.

Lemma noLF_app a b : noLF (a ++ b) <-> noLF a /\ noLF b.
Proof. unfold noLF. rewrite in_app_iff. tauto. Qed.

Lemma noLF_nil : noLF [].
Proof. intros []. Qed.

Lemma noLF_cons c t : c <> LF -> noLF t -> noLF (c :: t).
Proof. intros H K [E|E]; auto. Qed.

Lemma noLF_blanks n : noLF (blanks n).
Proof.
  unfold noLF, blanks. intros H. apply repeat_spec in H. discriminate H.
Qed.

Lemma blanks_length n : length (blanks n) = n.
Proof. apply repeat_length. Qed.

Lemma noLF_firstn n t : noLF t -> noLF (firstn n t).
Proof.
  intros H K. apply H. rewrite <- (firstn_skipn n t). apply in_app_iff. now left.
Qed.
Lemma noLF_skipn n t : noLF t -> noLF (skipn n t).
Proof.
  intros H K. apply H. rewrite <- (firstn_skipn n t). apply in_app_iff. now right.
Qed.
Lemma noLF_col a n t : noLF t -> noLF (col a n t).
Proof. intros H. apply noLF_firstn, noLF_skipn, H. Qed.

Lemma firstn_add_app {A} n m (l : list A) :
  firstn (n + m) l = firstn n l ++ firstn m (skipn n l).
Proof.
  revert l. induction n as [|n IH]; intros l; simpl; auto.
  destruct l; simpl; [now rewrite firstn_nil|]. now rewrite IH.
Qed.

Lemma skipn_add {A} n m (l : list A) : skipn (n + m) l = skipn m (skipn n l).
Proof.
  revert l. induction n as [|n IH]; intros l; simpl; auto.
  destruct l; simpl; [now rewrite skipn_nil|]. apply IH.
Qed.
