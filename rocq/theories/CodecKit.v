(** CodecKit.v -- more combinators for [cod], on top of Codec.v. *)
From Coq Require Import ZifyBool ZifyNat.
From Verif Require Import Base Disco DiscoProofs Records RecordProofs RecordRT RecordSound Layout
  RealRound RealProofs Spec Normal LineFacts Sections SecSpec Codec SectionProofs SecKit.
Open Scope Z_scope.

Lemma cod_all {A} rep inv (rd : Z -> Z -> Z -> M A) pr nc n : cod rep inv rd pr nc ->
  cod (Forall rep) (fun l => Forall inv l /\ len l = i32 n) (rd_all rd n) (pr_all pr) (nc_all nc).
Proof. exact (cod_sequence rep inv rd pr nc n). Qed.
Lemma std_all {A} (rd : Z -> Z -> Z -> M A) n : std3 rd -> std3 (rd_all rd n).
Proof. exact (std_sequence rd n). Qed.
Lemma cod_iseq0 {A} rep inv (rd : Z -> Z -> Z -> M A) pr nc : cod rep inv rd pr nc ->
  cod (rep_seq rep) (inv_seq inv any) (rd_iseq no_more rd) (pr_iseq pr) (nc_iseq nc).
Proof. intros H. apply (cod_iseq rep inv no_more any rd pr nc H). intros l _. split; [exact (fun _ => I)|reflexivity]. Qed.
Lemma std_iseq0 {A} (rd : Z -> Z -> Z -> M A) : std3 rd -> std3 (rd_iseq no_more rd).
Proof. apply std_iseq. Qed.
(** a condition checked after a read, given as a proposition *)
Lemma cod_require {A} rep inv (rd : Z -> Z -> Z -> M A) pr nc (chk : A -> bool) (P : A -> Prop) : cod rep inv rd pr nc ->
  (forall x, chk x = true <-> P x) ->
  cod rep (fun x => inv x /\ P x) (fun mat mf mt => x <- rd mat mf mt ;; require (chk x) ;;; ret x) pr nc.
Proof.
  intros H K. apply (cod_imp _ _ _ _ _ (cod_check _ _ _ _ _ H chk)).
  - intros x R [I1 I2]. exact (conj R (conj I1 (proj2 (K x) I2))).
  - intros x [I1 I2]. exact (conj I1 (proj1 (K x) I2)).
Qed.
Lemma len_nonneg {A} (l : list A) : 0 <= len l. Proof. unfold len. lia. Qed.
Lemma i32_pos_bound z : i32 z < 2 ^ 31. Proof. assert (K := i32_range z). unfold int32 in K. lia. Qed.
Lemma isize_len {A} (l : list A) : len l < 2 ^ 31 -> isize l = len l.
Proof. intros H. assert (K := len_nonneg l). unfold isize, len in *. apply i32_id. unfold int32. lia. Qed.
Lemma cols32 z : int32 z -> in_cols 11 z.
Proof. unfold int32, in_cols. cbn. lia. Qed.
Lemma int32_len {A} (l : list A) : len l < 2 ^ 31 -> int32 (len l).
Proof. intros H. assert (K := len_nonneg l). unfold int32. lia. Qed.
Lemma as_int_self z : int32 z -> as_int z z.
Proof. intros H. apply as_int_eq. now apply i32_id. Qed.

(** a read of a single part, without continuation *)
Lemma reads_single {A B} rep inv (rd : Z -> Z -> Z -> M A) pr nc (f : A -> B) mat mf mt x :
  cod rep inv rd pr nc -> good_tail mat mf mt -> rep x -> inv x ->
  reads (y <- rd mat mf mt ;; ret (f y)) (pr x mat mf mt) (f x) (nc x).
Proof. intros H G R I. apply reads_bind_ret. now apply H. Qed.

Global Hint Resolve cod_all std_all cod_iseq0 std_iseq0 : cod.

(** the definitions that describe a class: unfolded by the tactics *)
Create HintDb codm discriminated.
Ltac un := repeat (progress (autounfold with codm in *; cbv beta iota zeta in *)).
Ltac ung := repeat (progress (autounfold with codm; cbv beta iota zeta)).

(** evaluate comparisons of literals *)
Ltac is_lit z := match z with Z0 => idtac | Zpos ?p => is_ground p | Zneg ?p => is_ground p end.
Ltac flag1 :=
  match goal with
  | |- context [i32 ?a] => is_lit a; let v := eval vm_compute in (i32 a) in change (i32 a) with v
  | |- context [Z.eqb ?a ?b] => is_lit a; is_lit b; let v := eval vm_compute in (Z.eqb a b) in change (Z.eqb a b) with v; cbv iota
  | |- context [Z.ltb ?a ?b] => is_lit a; is_lit b; let v := eval vm_compute in (Z.ltb a b) in change (Z.ltb a b) with v; cbv iota
  | |- context [Z.leb ?a ?b] => is_lit a; is_lit b; let v := eval vm_compute in (Z.leb a b) in change (Z.leb a b) with v; cbv iota
  end.
Ltac flags := repeat flag1; cbn [andb orb negb]; cbv iota.
Ltac consts := cbn [fst snd s_body istab isrec] in *.
(** the four integers of a HEAD *)
Ltac ints4 := split; [|split; [|split]]; try solve [cols].
(** the layout of a concatenation of parts; tries every known codec of a part *)
Ltac lay1 := unshelve (once (eapply layout_cod; [typeclasses eauto 4 with cod nocore|assumption|solve [side]|solve [side]])); try exact 0.
Ltac lay := repeat first
  [ apply layout_nil
  | match goal with |- layout _ _ _ _ (_ ++ _) => apply layout_app end
  | lay1 ].
Ltac rd1 := once (eapply reads_cod; [typeclasses eauto 4 with cod nocore|assumption|solve [side]|solve [side]]).
(** a chain of reads ending in ret *)
Ltac rds := repeat first
  [ apply reads_ret
  | eapply reads_require_bind; [solve [side]|]
  | match goal with
    | |- reads (bind _ _) (_ ++ _) _ _ => eapply reads_bind; [rd1|cbv beta]
    | |- reads (bind _ _) _ _ _ => eapply reads_bind_r; [rd1|cbv beta]
    end
  | rd1 ].
Ltac po := repeat first
  [ apply post_throw | apply post_undef
  | eapply post_bind; [first [eapply post_cod; solve [eauto with cod] | apply post_require] | cbv beta; intros ? ? ]
  | match goal with |- post (if ?x then _ else _) _ => destruct x eqn:? end ].

(** two parts, the second may depend on the first *)
Lemma cod_dep {A B C} (f : A -> B -> C) (ga : C -> A) (gb : C -> B) RA IA rdA prA ncA RB IB rdB (prB : A -> B -> Z -> Z -> Z -> text) (ncB : A -> B -> Z) :
  (forall c, f (ga c) (gb c) = c) -> (forall a b, ga (f a b) = a) -> (forall a b, gb (f a b) = b) ->
  cod RA IA rdA prA ncA -> (forall a, cod (RB a) (IB a) (rdB a) (prB a) (ncB a)) ->
  cod (fun c => RA (ga c) /\ RB (ga c) (gb c)) (fun c => IA (ga c) /\ IB (ga c) (gb c))
    (fun mat mf mt => a <- rdA mat mf mt ;; b <- rdB a mat mf mt ;; ret (f a b))
    (fun c mat mf mt => prA (ga c) mat mf mt ++ prB (ga c) (gb c) mat mf mt) (fun c => ncA (ga c) + ncB (ga c) (gb c)).
Proof.
  intros Hf Ha Hb HA HB. split; intros mat mf mt.
  - intros c G [R1 R2] [I1 I2]. eapply reads_bind; [apply (co_reads _ _ _ _ _ HA); assumption|cbv beta].
    assert (K := reads_bind_ret _ (f (ga c)) _ _ _ (co_reads _ _ _ _ _ (HB (ga c)) mat mf mt (gb c) G R2 I2)). rewrite Hf in K. exact K.
  - intros c G [R1 R2] [I1 I2]. apply layout_app; [apply (co_layout _ _ _ _ _ HA)|apply (co_layout _ _ _ _ _ (HB (ga c)))]; assumption.
  - apply consumes_bind; [apply HA|intros a]. apply consumes_bind; [apply (HB a)|intros; apply consumes_ret].
  - eapply post_bind; [apply HA|intros a Ia]. eapply post_bind; [apply (HB a)|intros b Ib]. apply post_ret. rewrite Ha, Hb. auto.
Qed.
Lemma std_dep {A B C} (f : A -> B -> C) rdA rdB : std3 rdA -> (forall a, std3 (rdB a)) ->
  std3 (fun mat mf mt => a <- rdA mat mf mt ;; b <- rdB a mat mf mt ;; ret (f a b)).
Proof.
  intros HA HB mat mf mt. apply only_std_bind; [apply HA|intros a]. apply only_std_bind; [apply HB|intros; apply only_std_ret].
Qed.
(** one alternative of a sum *)
Lemma cod_inj {A C} (f : A -> C) (R' I' : C -> Prop) pr' nc' R I (rd : Z -> Z -> Z -> M A) pr nc :
  cod R I rd pr nc ->
  (forall a mat mf mt, pr' (f a) mat mf mt = pr a mat mf mt) -> (forall a, nc' (f a) = nc a) ->
  (forall c, R' c -> I' c -> exists a, c = f a /\ R a /\ I a) -> (forall a, I a -> I' (f a)) ->
  cod R' I' (fun mat mf mt => x <- rd mat mf mt ;; ret (f x)) pr' nc'.
Proof.
  intros H Hp Hn Hr Hi. split; intros mat mf mt.
  - intros c G R1 I1. destruct (Hr c R1 I1) as (a & -> & Ra & Ia). rewrite Hp, Hn. apply reads_bind_ret. now apply H.
  - intros c G R1 I1. destruct (Hr c R1 I1) as (a & -> & Ra & Ia). rewrite Hp, Hn. now apply H.
  - apply consumes_bind; [apply H|intros; apply consumes_ret].
  - eapply post_bind; [apply H|intros a Ia]. apply post_ret. auto.
Qed.
Lemma std_inj {A C} (f : A -> C) (rd : Z -> Z -> Z -> M A) : std3 rd -> std3 (fun mat mf mt => x <- rd mat mf mt ;; ret (f x)).
Proof. intros H mat mf mt. apply only_std_bind; [apply H|intros; apply only_std_ret]. Qed.
(** nothing to read *)
Lemma cod_ret {A} (a : A) (R I : A -> Prop) pr nc : (forall x, R x -> I x -> x = a) -> I a ->
  (forall mat mf mt, pr a mat mf mt = []) -> nc a = 0 -> cod R I (fun _ _ _ => ret a) pr nc.
Proof.
  intros H Ia Hp Hn. split; intros mat mf mt.
  - intros x G Rx Ix. rewrite (H x Rx Ix), Hp, Hn. apply reads_ret.
  - intros x G Rx Ix. rewrite (H x Rx Ix), Hp, Hn. apply layout_nil.
  - apply consumes_ret.
  - now apply post_ret.
Qed.
Lemma cod_throw {A} e (R I : A -> Prop) pr nc : (forall x, R x -> I x -> False) -> cod R I (fun _ _ _ => throw e) pr nc.
Proof.
  intros H. split; intros mat mf mt.
  - intros x G R1 I1. destruct (H x R1 I1).
  - intros x G R1 I1. destruct (H x R1 I1).
  - apply consumes_throw.
  - apply post_throw.
Qed.
Lemma cod_if {A} (b : bool) R I (rd1 rd2 : Z -> Z -> Z -> M A) pr nc :
  cod (fun x => R x /\ b = true) I rd1 pr nc -> cod (fun x => R x /\ b = false) I rd2 pr nc ->
  cod R I (fun mat mf mt => if b then rd1 mat mf mt else rd2 mat mf mt) pr nc.
Proof.
  intros H1 H2. destruct b; [apply (cod_imp _ _ _ _ _ H1)|apply (cod_imp _ _ _ _ _ H2)]; auto.
Qed.
Lemma std_if {A} (b : bool) (rd1 rd2 : Z -> Z -> Z -> M A) : std3 rd1 -> std3 rd2 ->
  std3 (fun mat mf mt => if b then rd1 mat mf mt else rd2 mat mf mt).
Proof. intros H1 H2. destruct b; assumption. Qed.
Lemma std_throw {A} : std3 (fun _ _ _ => @throw A EStd).
Proof. intros mat mf mt. apply only_std_throw. reflexivity. Qed.
Lemma std_ret {A} (a : A) : std3 (fun _ _ _ => ret a).
Proof. intros mat mf mt. apply only_std_ret. Qed.
(** a check before a read *)
Lemma cod_guard {A} (b : bool) R I (rd : Z -> Z -> Z -> M A) pr nc : cod R I rd pr nc ->
  cod (fun x => R x /\ b = true) (fun x => I x /\ b = true) (fun mat mf mt => require b ;;; rd mat mf mt) pr nc.
Proof.
  intros H. split; intros mat mf mt.
  - intros x G [R1 E] [I1 _]. apply reads_require_bind; [exact E|]. now apply H.
  - intros x G [R1 E] [I1 _]. now apply H.
  - apply consumes_bind; [apply consumes_require|intros; apply H].
  - eapply post_bind; [apply post_require|cbv beta; intros _ E]. eapply post_weaken; [apply H|]. auto.
Qed.
Lemma std_guard {A} (b : bool) (rd : Z -> Z -> Z -> M A) : std3 rd -> std3 (fun mat mf mt => require b ;;; rd mat mf mt).
Proof. intros H mat mf mt. apply only_std_bind; [apply only_std_require|intros; apply H]. Qed.
Global Hint Resolve std_dep std_inj std_if std_throw std_ret std_guard : cod.
