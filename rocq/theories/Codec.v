(** Codec.v -- combinators for proving [codec] and [safe] of SecSpec.v. *)
From Coq Require Import ZifyBool ZifyNat.
From Verif Require Import Base Disco DiscoProofs Records RecordProofs RecordRT RecordSound Layout
  RealRound RealProofs Spec Normal LineFacts Sections SecSpec.
Open Scope Z_scope.

(** postconditions of successful reads *)
Definition post {A} (m : M A) (Q : A -> Prop) : Prop := forall s a s', m s = Ok a s' -> Q a.
Lemma post_ret {A} (a : A) (Q : A -> Prop) : Q a -> post (ret a) Q.
Proof. intros H s x s' E. injection E as <- _. exact H. Qed.
Lemma post_throw {A} e (Q : A -> Prop) : post (throw e) Q.
Proof. intros s x s' E. discriminate. Qed.
Lemma post_undef {A} (Q : A -> Prop) : post undef Q.
Proof. intros s x s' E. discriminate. Qed.
Lemma post_bind {A B} (m : M A) (f : A -> M B) (Q : A -> Prop) (R : B -> Prop) :
  post m Q -> (forall a, Q a -> post (f a) R) -> post (bind m f) R.
Proof. intros H K s b s' E. apply bind_ok in E. destruct E as (a & s1 & E1 & E2). exact (K a (H _ _ _ E1) _ _ _ E2). Qed.
Lemma post_require b : post (require b) (fun _ => b = true).
Proof. intros s x s' E. now apply require_ok in E. Qed.
Lemma post_weaken {A} (m : M A) (Q R : A -> Prop) : post m Q -> (forall a, Q a -> R a) -> post m R.
Proof. intros H K s a s' E. eauto. Qed.
Lemma post_true {A} (m : M A) : post m any. Proof. exact (fun _ _ _ _ => I). Qed.
Lemma post_lift {A} (o : out A) : post (lift o) (fun a => o = Val a).
Proof. destruct o; cbn; intros s x s' E; [injection E as <- _; reflexivity|discriminate|discriminate]. Qed.

(** the working form *)
Record cod {A} (rep inv : A -> Prop) (rd : Z -> Z -> Z -> M A)
       (pr : A -> Z -> Z -> Z -> text) (nc : A -> Z) : Prop := mkcod
  { co_reads : forall mat mf mt x, good_tail mat mf mt -> rep x -> inv x ->
      reads (rd mat mf mt) (pr x mat mf mt) x (nc x);
    co_layout : forall mat mf mt x, good_tail mat mf mt -> rep x -> inv x ->
      layout mat mf mt (nc x) (pr x mat mf mt);
    co_consumes : forall mat mf mt, consumes (tail_is mat mf mt) (rd mat mf mt);
    co_post : forall mat mf mt, post (rd mat mf mt) inv }.
(** the same without the lines *)
Record cdw {A} (rep inv : A -> Prop) (rd : Z -> Z -> Z -> M A)
       (pr : A -> Z -> Z -> Z -> text) (nc : A -> Z) : Prop := mkcdw
  { cw_reads : forall mat mf mt x, good_tail mat mf mt -> rep x -> inv x ->
      reads (rd mat mf mt) (pr x mat mf mt) x (nc x);
    cw_layout : forall mat mf mt x, good_tail mat mf mt -> rep x -> inv x ->
      layout mat mf mt (nc x) (pr x mat mf mt);
    cw_post : forall mat mf mt, post (rd mat mf mt) inv }.
Lemma cod_cdw {A} rep inv (rd : Z -> Z -> Z -> M A) pr nc : cod rep inv rd pr nc -> cdw rep inv rd pr nc.
Proof. intros [H1 H2 _ H4]. now split. Qed.
Definition std3 {A} (rd : Z -> Z -> Z -> M A) : Prop := forall mat mf mt, only_std (rd mat mf mt).

Lemma consumes_consumed {A} mat mf mt (m : M A) s a s' :
  consumes (tail_is mat mf mt) m -> m s = Ok a s' -> consumed (carries mat mf mt) s s'.
Proof.
  intros H E. destruct (H _ _ _ E) as (ls & S & L & F & _). exists (length ls).
  split; [symmetry; eapply splits_drop; eauto|]. split; [exact L|].
  intros i Hi. destruct (nth_error ls i) as [l|] eqn:El; [|apply nth_error_None in El; lia].
  erewrite splits_nth by eauto. rewrite Forall_forall in F. apply F. eapply nth_error_In; eauto.
Qed.
Lemma cod_codec {A} rep inv (rd : Z -> Z -> Z -> M A) pr nc : cod rep inv rd pr nc -> codec rep inv rd pr nc.
Proof.
  intros [H1 H2 H3 H4]. split.
  - intros. now apply H1.
  - exact H2.
  - intros. eapply consumes_consumed; eauto.
  - exact H4.
Qed.
Lemma std_safe {A} (rd : Z -> Z -> Z -> M A) : std3 rd -> safe rd.
Proof. intros H mat mf mt s. exact (H mat mf mt s). Qed.

(** ** the records *)
Lemma endf_oklist l : endf_list l -> oklist l.
Proof.
  intros (H1 & H2 & H3 & H4 & H5 & H6 & H7). unfold oklist, npl.
  repeat split; try (apply endf_okr; auto); try (apply in_cols_fits; auto; lia).
  eapply Forall_impl; [exact endf_okr|exact H7].
Qed.
Lemma rep_oktab2 t : rep_tab2 t -> inv_tab2 t -> oktab2 t.
Proof.
  intros (H1 & H2 & H3 & H4 & H5 & H6 & H7) (I1 & I2 & I3 & I4). unfold oktab2, tnr, tn2.
  repeat split; try (apply endf_okr; auto); try (apply in_cols_fits; auto; lia); auto.
  - now apply sorted_Z.
  - eapply Forall_impl; [|exact H6]. intros; apply in_cols_fits; auto; lia.
  - eapply Forall_impl; [|exact H7]. intros; apply in_cols_fits; auto; lia.
Qed.
Lemma rep_oktab1 t : rep_tab1 t -> inv_tab1 t -> oktab1 t.
Proof.
  intros (H1 & H2 & H3) (I1 & I2 & I3 & I4). split; [now apply rep_oktab2|].
  unfold tn2, tnp. repeat split; auto.
  - now apply sorted_R.
  - eapply Forall_impl; [exact endf_okr|exact H2].
  - eapply Forall_impl; [exact endf_okr|exact H3].
Qed.
Lemma cod_cont : cod endf_cont any rd_cont pr_cont nc_cont.
Proof.
  split; intros.
  - apply reads_cont; auto using endf_okcont, good_oktail.
  - apply layout_cont; auto using endf_okcont, good_oktail, okcont_pr.
  - apply consumes_cont.
  - apply post_true.
Qed.
Lemma cod_list : cod endf_list any rd_list pr_list nc_list.
Proof.
  split; intros.
  - apply reads_list; auto using endf_oklist, good_oktail.
  - apply layout_list; auto using endf_oklist, good_oktail, oklist_pr.
  - apply consumes_list.
  - apply post_true.
Qed.
Lemma tab2_inv_spec t : tab2_inv t -> inv_tab2 t.
Proof. intros (A & B & C & D). repeat split; auto. now apply sorted_Z. Qed.
Lemma cod_tab2 : cod rep_tab2 inv_tab2 rd_tab2 pr_tab2 nc_tab2.
Proof.
  split; intros.
  - apply reads_tab2; auto using rep_oktab2, good_oktail.
  - apply layout_tab2; auto using rep_oktab2, good_oktail, oktab2_pr.
  - apply consumes_tab2.
  - intros s t s' E. unfold rd_tab2 in E. apply on_err_ok in E. apply rd_ibase_spec in E. apply tab2_inv_spec. tauto.
Qed.
Lemma cod_tab1 : cod rep_tab1 inv_tab1 rd_tab1 pr_tab1 nc_tab1.
Proof.
  split; intros.
  - apply reads_tab1; auto using rep_oktab1, good_oktail.
  - apply layout_tab1; auto using rep_oktab1, good_oktail, oktab1_pr.
  - apply consumes_tab1.
  - intros s t s' E. apply rd_tab1_spec in E. destruct E as ((A & B & C & D) & _).
    split; [now apply tab2_inv_spec|]. repeat split; auto. now apply sorted_R.
Qed.
Lemma cod_dir : cod rep_dir any rd_dir pr_dir (fun _ => 1).
Proof.
  assert (K : forall d, rep_dir d -> okdir d).
  { intros d (H1 & H2 & H3 & H4). repeat split; apply in_cols_fits; auto; lia. }
  split; intros.
  - apply reads_dir; auto using good_oktail.
  - apply layout_dir; auto using good_oktail.
  - apply consumes_dir.
  - apply post_true.
Qed.
(** 66-column texts *)
Definition rep_text (t : text) : Prop := length t = 66%nat /\ noLF t.
Lemma cod_text : cod rep_text any rd_text pr_text (fun _ => 1).
Proof.
  split; intros.
  - destruct H0 as [L N]. eapply reads_eq; [apply (reads_text x); [lia|exact N|now apply good_oktail]|reflexivity| |reflexivity].
    unfold lj. rewrite L. change (66 - 66)%nat with 0%nat. apply app_nil_r.
  - destruct H0 as [L N]. apply layout_text; [lia|exact N|now apply good_oktail].
  - apply consumes_text.
  - apply post_true.
Qed.

(** ** combinators *)
Section Comb.
  Context {A : Type}.
  Variables (rep inv : A -> Prop) (rd : Z -> Z -> Z -> M A) (pr : A -> Z -> Z -> Z -> text) (nc : A -> Z).
  Hypothesis H : cod rep inv rd pr nc.

  (** other invariant, equivalent on representable values *)
  Lemma cod_imp (rep' inv' : A -> Prop) : (forall x, rep' x -> inv' x -> rep x /\ inv x) -> (forall x, inv x -> inv' x) ->
    cod rep' inv' rd pr nc.
  Proof.
    intros K1 K2. destruct H as [H1 H2 H3 H4]. split; intros.
    - destruct (K1 x); auto.
    - destruct (K1 x); auto.
    - auto.
    - eapply post_weaken; eauto.
  Qed.
  (** a verification step after the read *)
  Lemma cod_check (chk : A -> bool) :
    cod rep (fun x => inv x /\ chk x = true) (fun mat mf mt => x <- rd mat mf mt ;; require (chk x) ;;; ret x) pr nc.
  Proof.
    destruct H as [H1 H2 H3 H4]. split.
    - intros mat mf mt x G R [I C]. eapply reads_eq; [|reflexivity|reflexivity|].
      + eapply reads_bind_r; [now apply H1|]. eapply reads_require_bind; [exact C|]. apply reads_ret.
      + lia.
    - intros mat mf mt x G R [I C]. auto.
    - intros. apply consumes_bind; [auto|intros]. apply consumes_bind; [apply consumes_require|intros; apply consumes_ret].
    - intros. eapply post_bind; [apply H4|intros a Ia]. eapply post_bind; [apply post_require|cbv beta; intros _ C]. now apply post_ret.
  Qed.
  (** wrapping *)
  Lemma cod_wrap {B} (f : A -> B) (g : B -> A) : (forall b, f (g b) = b) -> (forall a, g (f a) = a) ->
    cod (fun b => rep (g b)) (fun b => inv (g b)) (fun mat mf mt => x <- rd mat mf mt ;; ret (f x))
        (fun b => pr (g b)) (fun b => nc (g b)).
  Proof.
    intros FG GF. destruct H as [H1 H2 H3 H4]. split.
    - intros mat mf mt x G R I. eapply reads_eq; [|reflexivity|apply FG|reflexivity]. apply reads_bind_ret. now apply H1.
    - intros. auto.
    - intros. apply consumes_bind; [auto|intros; apply consumes_ret].
    - intros. eapply post_bind; [apply H4|intros a Ia]. apply post_ret. now rewrite GF.
  Qed.
End Comb.
Lemma post_rd_n {A} (m : M A) (Q : A -> Prop) n : post m Q -> post (rd_n m n) (fun l => Forall Q l /\ length l = n).
Proof.
  intros H. induction n as [|n IH]; cbn [rd_n]; [apply post_ret; auto|].
  eapply post_bind; [exact H|intros a Ha]. eapply post_bind; [exact IH|cbv beta; intros l [Hl Hn]]. apply post_ret.
  split; [now constructor|cbn; lia].
Qed.
(** readSequence with the count given by an earlier field *)
Lemma cod_sequence {A} rep inv (rd : Z -> Z -> Z -> M A) pr nc n : cod rep inv rd pr nc ->
  cod (Forall rep) (fun l => Forall inv l /\ Z.of_nat (length l) = i32 n)
      (fun mat mf mt => rd_sequence rd mat mf mt n) (fun l mat mf mt => flat_map (fun c => pr c mat mf mt) l)
      (fun l => zsum (map nc l)).
Proof.
  intros [H1 H2 H3 H4]. split.
  - intros mat mf mt l G R [I L]. unfold rd_sequence. rewrite <- L. eapply reads_require_bind; [lia|]. rewrite Nat2Z.id.
    apply reads_rd_n. rewrite Forall_forall in *. intros x Hx. apply H1; auto.
  - intros mat mf mt l G R [I L]. apply (layout_flat_map (fun c => pr c mat mf mt)). rewrite Forall_forall in *. intros x Hx. apply H2; auto.
  - intros. now apply consumes_sequence.
  - intros. unfold rd_sequence. eapply post_bind; [apply post_require|cbv beta; intros _ E].
    eapply post_weaken; [apply post_rd_n, H4|]. cbv beta. intros l [F L]. split; [exact F|]. lia.
Qed.
(** TAB2 followed by its records *)
Lemma cod_iseq {A} rep inv validate (invs : list A -> Prop) (rd : Z -> Z -> Z -> M A) pr nc : cod rep inv rd pr nc ->
  (forall l, Forall inv l -> (validate l = true <-> invs l)) ->
  cod (rep_seq rep) (inv_seq inv invs) (rd_iseq validate rd) (pr_iseq pr) (nc_iseq nc).
Proof.
  intros [H1 H2 H3 H4] V. 
  assert (K : forall q, rep_seq rep q -> inv_seq inv invs q ->
     tn2 (istab q) = Z.of_nat (length (isrec q)) /\ Forall rep (isrec q) /\ Forall inv (isrec q) /\ oktab2 (istab q)).
  { intros q (R1 & R2 & R3) (I1 & I2 & I3 & I4 & I5). repeat split; auto; try apply rep_oktab2; auto.
    unfold tn2. destruct I1 as (_ & _ & _ & I1). rewrite Z.mod_small in I3 by lia. exact I3. }
  split.
  - intros mat mf mt q G R I. destruct (K q R I) as (E & F1 & F2 & T). destruct R as (R1 & R2 & R3), I as (I1 & I2 & I3 & I4 & I5).
    apply (reads_iseq (fun c => rep c /\ inv c)); auto using good_oktail.
    + intros c [A1 A2]. auto.
    + repeat split; auto; try lia; try apply T.
      * apply V; auto.
      * rewrite Forall_forall in *. auto.
  - intros mat mf mt q G R I. destruct (K q R I) as (E & F1 & F2 & T). apply layout_iseq; auto using good_oktail, oktab2_pr.
    rewrite Forall_forall in *. auto.
  - intros. now apply consumes_iseq.
  - intros mat mf mt. unfold rd_iseq. eapply post_bind; [apply (co_post _ _ _ _ _ cod_tab2)|intros t It].
    eapply post_bind.
    { unfold rd_sequence. eapply post_bind; [apply post_require|cbv beta; intros _ E]. apply post_rd_n, H4. }
    cbv beta. intros l [F L]. eapply post_weaken; [apply post_lift|]. cbv beta. intros q E. unfold make_iseq in E.
    assert (Ln : 0 <= Z.of_nat (length l) < 2 ^ 31).
    { rewrite L. unfold i32. assert (B := Z.mod_pos_bound (tn2 t) 4294967296 ltac:(lia)). 
      destruct (Z.ltb_spec (tn2 t mod 4294967296) 2147483648); lia. }
    rewrite u32_small in E by lia.
    destruct (Z.eqb_spec (Z.of_nat (length l)) 0); [discriminate|].
    destruct (Z.eqb_spec (u32 (tn2 t)) (Z.of_nat (length l))) as [E1|]; [|discriminate].
    destruct (validate l) eqn:Ev; [|discriminate]. cbn in E. injection E as <-.
    repeat split; cbn; auto; try lia; try apply It.
    now apply V.
Qed.

(** ** exceptions *)
Lemma std_cont : std3 rd_cont. Proof. exact only_std_cont. Qed.
Lemma std_list : std3 rd_list. Proof. exact only_std_list. Qed.
Lemma std_tab1 : std3 rd_tab1. Proof. exact only_std_tab1. Qed.
Lemma std_tab2 : std3 rd_tab2. Proof. exact only_std_tab2. Qed.
Lemma std_text : std3 rd_text. Proof. exact only_std_text. Qed.
Lemma std_dir : std3 rd_dir. Proof. exact only_std_dir. Qed.
Lemma std_iseq {C} v (rd : Z -> Z -> Z -> M C) : std3 rd -> std3 (rd_iseq v rd).
Proof. intros H mat mf mt. apply only_std_iseq, H. Qed.
Lemma std_sequence {C} (rd : Z -> Z -> Z -> M C) n : std3 rd -> std3 (fun mat mf mt => rd_sequence rd mat mf mt n).
Proof. intros H mat mf mt. apply only_std_sequence, H. Qed.
Lemma std_check {A} (rd : Z -> Z -> Z -> M A) chk : std3 rd ->
  std3 (fun mat mf mt => x <- rd mat mf mt ;; require (chk x) ;;; ret x).
Proof.
  intros H mat mf mt. apply only_std_bind; [apply H|intros]. apply only_std_bind; [apply only_std_require|intros; apply only_std_ret].
Qed.

(** ** tactics *)
Create HintDb cod discriminated.
Global Hint Resolve cod_cont cod_list cod_tab2 cod_tab1 cod_dir cod_text : cod.
Global Hint Resolve std_cont std_list std_tab2 std_tab1 std_dir std_text : cod.

(** decompose a conjunction-like hypothesis *)
Ltac conj := repeat match goal with H : _ /\ _ |- _ => destruct H end.

Lemma reads_k {A} (m : M A) t a k k' : reads m t a k' -> k' = k -> reads m t a k.
Proof. intros H <-. exact H. Qed.
Lemma reads_cod {A} rep inv (rd : Z -> Z -> Z -> M A) pr nc mat mf mt x :
  cod rep inv rd pr nc -> good_tail mat mf mt -> rep x -> inv x -> reads (rd mat mf mt) (pr x mat mf mt) x (nc x).
Proof. intros H. apply H. Qed.
Lemma layout_cod {A} rep inv (rd : Z -> Z -> Z -> M A) pr nc mat mf mt x :
  cod rep inv rd pr nc -> good_tail mat mf mt -> rep x -> inv x -> layout mat mf mt (nc x) (pr x mat mf mt).
Proof. intros H. apply H. Qed.
Lemma consumes_cod {A} rep inv (rd : Z -> Z -> Z -> M A) pr nc mat mf mt :
  cod rep inv rd pr nc -> consumes (tail_is mat mf mt) (rd mat mf mt).
Proof. intros H. apply H. Qed.
Lemma post_cod {A} rep inv (rd : Z -> Z -> Z -> M A) pr nc mat mf mt :
  cod rep inv rd pr nc -> post (rd mat mf mt) inv.
Proof. intros H. apply H. Qed.
Lemma std_cod {A} (rd : Z -> Z -> Z -> M A) mat mf mt : std3 rd -> only_std (rd mat mf mt).
Proof. intros H. apply H. Qed.

Ltac side := cbv beta; first [ assumption | exact I | reflexivity | solve [auto] | tauto | lia ].
Ltac reads_tac :=
  repeat first
  [ apply reads_ret
  | eapply reads_require_bind; [solve [side]|]
  | match goal with
    | |- reads (bind _ _) (_ ++ _) _ _ => eapply reads_bind; [eapply reads_cod; [solve [eauto with cod]|assumption|solve [side]|solve [side]]|cbv beta]
    | |- reads (bind _ _) _ _ _ => eapply reads_bind_r; [eapply reads_cod; [solve [eauto with cod]|assumption|solve [side]|solve [side]]|cbv beta]
    end
  | eapply reads_cod; [solve [eauto with cod]|assumption|solve [side]|solve [side]] ].
Ltac layout_tac :=
  repeat first [ apply layout_app | eapply layout_cod; [solve [eauto with cod]|assumption|solve [side]|solve [side]] | apply layout_nil ].
Ltac post_tac :=
  repeat first
  [ apply post_throw
  | eapply post_bind; [first [eapply post_cod; solve [eauto with cod] | apply post_require] | cbv beta; intros ]
  | match goal with |- post (if ?x then _ else _) _ => destruct x eqn:? end ].
Lemma consumes_undef {A} P : consumes P (@undef A).
Proof. intros s x s' E. discriminate. Qed.
Ltac consumes_tac :=
  repeat first
  [ apply consumes_ret | apply consumes_require | apply consumes_throw | apply consumes_lift
  | eapply consumes_cod; solve [eauto with cod]
  | apply consumes_sequence | apply consumes_iseq
  | apply consumes_bind; [|intros]
  | match goal with |- consumes _ (match ?x with _ => _ end) => destruct x end ].
Ltac std_tac :=
  repeat first
  [ apply only_std_ret | apply only_std_require | apply only_std_throw; reflexivity
  | eapply std_cod; solve [eauto with cod]
  | apply only_std_sequence | apply only_std_iseq
  | apply only_std_bind; [|intros]
  | match goal with |- only_std (match ?x with _ => _ end) => destruct x end ].

(** ** int conversions *)
Lemma i32_range z : int32 (i32 z).
Proof. unfold int32, i32. assert (B := Z.mod_pos_bound z 4294967296 ltac:(lia)). destruct (Z.ltb_spec (z mod 4294967296) 2147483648); lia. Qed.
Lemma as_int_i32 z : as_int z (i32 z).
Proof.
  split; [apply i32_range|]. unfold i32. change (2 ^ 32) with 4294967296.
  assert (D := Z.div_mod z 4294967296 ltac:(lia)). set (q := z / 4294967296) in *. set (r := z mod 4294967296) in *.
  destruct (r <? 2147483648).
  - replace (z - r) with (q * 4294967296) by lia. apply Z.mod_mul. lia.
  - replace (z - (r - 4294967296)) with ((q + 1) * 4294967296) by lia. apply Z.mod_mul. lia.
Qed.
Lemma as_int_eq z n : as_int z n <-> i32 z = n.
Proof.
  split; [|intros <-; apply as_int_i32]. intros [R E]. unfold int32 in R. change (2 ^ 32) with 4294967296 in E.
  apply Z.mod_divide in E; [|lia]. destruct E as [q E]. unfold i32.
  replace z with (n + q * 4294967296) by lia. rewrite Z.mod_add by lia.
  destruct (Z.leb_spec 0 n).
  - rewrite Z.mod_small by lia. destruct (Z.ltb_spec n 2147483648); lia.
  - replace (n mod 4294967296) with (n + 4294967296).
    2:{ symmetry. rewrite <- (Z.mod_small (n + 4294967296) 4294967296) by lia. replace (n + 4294967296) with (n + 1 * 4294967296) by lia. now rewrite Z.mod_add by lia. }
    destruct (Z.ltb_spec (n + 4294967296) 2147483648); lia.
Qed.
Lemma i32_id z : int32 z -> i32 z = z.
Proof. intros H. apply as_int_eq. split; [exact H|]. now rewrite Z.sub_diag. Qed.
Lemma i32_i32 z : i32 (i32 z) = i32 z.
Proof. apply i32_id, i32_range. Qed.

(** a HEAD with given integers *)
Ltac heads H := unfold head_ints in H; cbn [k_ints] in H; injection H as ? ? ? ?.
Lemma cols_small z : 0 <= z < 2 ^ 31 -> in_cols 11 z.
Proof. unfold in_cols. cbn. lia. Qed.
Ltac cols := first [ assumption | apply cols_small; lia ].


Lemma bind_pull {A B} (m : M A) (chk : A -> bool) (f : A -> B) s :
  (q <- m ;; require (chk q) ;;; ret (f q)) s = (q' <- (q <- m ;; require (chk q) ;;; ret q) ;; ret (f q')) s.
Proof. unfold bind. destruct (m s); auto. unfold require. destruct (chk a); reflexivity. Qed.
Lemma cod_ext {A} rep inv (rd rd' : Z -> Z -> Z -> M A) pr nc : (forall mat mf mt s, rd' mat mf mt s = rd mat mf mt s) ->
  cod rep inv rd pr nc -> cod rep inv rd' pr nc.
Proof.
  intros E [H1 H2 H3 H4]. split; intros.
  - intros r ln. rewrite E. now apply H1.
  - auto.
  - intros s a s' Es. rewrite E in Es. destruct (H3 _ _ _ _ _ _ Es) as (ls & S & L & F & D). exists ls. repeat (split; [assumption|]). intros b r ln K. rewrite E. now apply D.
  - intros s a s' Es. rewrite E in Es. eapply H4; eauto.
Qed.
Lemma std_ext {A} (rd rd' : Z -> Z -> Z -> M A) : (forall mat mf mt s, rd' mat mf mt s = rd mat mf mt s) -> std3 rd -> std3 rd'.
Proof. intros E H mat mf mt s. rewrite E. apply H. Qed.
Global Hint Extern 0 (any _) => exact I : core cod.
