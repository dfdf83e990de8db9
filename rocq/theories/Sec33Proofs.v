(** Sec33Proofs.v -- the covariance files satisfy [section_rt]. *)
From Coq Require Import ZifyBool ZifyNat.
From Verif Require Import Base Disco DiscoProofs Records RecordProofs RecordRT RecordSound Layout
  RealRound RealProofs Spec Normal LineFacts Sections SecSpec Codec SectionProofs SecKit CodecKit
  Sec9 Sec9Spec Sec9Proofs Sec6 Sec6Spec Sec6Proofs Sec33 Sec33Spec.
Open Scope Z_scope.

(** ** combinators *)
Lemma cod_ext {A} R I (rd rd' : Z -> Z -> Z -> M A) pr nc : cod R I rd pr nc ->
  (forall mat mf mt s, rd' mat mf mt s = rd mat mf mt s) -> cod R I rd' pr nc.
Proof.
  intros [H1 H2 H3 H4] E. split; intros mat mf mt.
  - intros x G Rx Ix rest ln. rewrite E. now apply H1.
  - exact (H2 mat mf mt).
  - intros s a s' Es. rewrite E in Es. destruct (H3 _ _ _ _ _ _ Es) as (ls & S & L & F & D). exists ls. repeat (split; [assumption|]). intros b r ln K. rewrite E. now apply D.
  - intros s a s'. rewrite E. apply H4.
Qed.
(** a conversion that may fail after the read *)
Lemma cod_map {A B} (mk : A -> out B) (un : B -> A) R I (R' I' : B -> Prop) (rd : Z -> Z -> Z -> M A) pr nc : cod R I rd pr nc ->
  (forall b, R' b -> I' b -> R (un b) /\ I (un b) /\ mk (un b) = Val b) -> (forall a b, I a -> mk a = Val b -> I' b) ->
  cod R' I' (fun mat mf mt => a <- rd mat mf mt ;; lift (mk a)) (fun b => pr (un b)) (fun b => nc (un b)).
Proof.
  intros H K1 K2. split; intros mat mf mt.
  - intros b G Rb Ib. destruct (K1 b Rb Ib) as (Ra & Ia & E). eapply reads_k; [eapply reads_bind_r; [now apply H|]|].
    + rewrite E. apply reads_ret.
    + lia.
  - intros b G Rb Ib. destruct (K1 b Rb Ib) as (Ra & Ia & E). now apply H.
  - apply consumes_bind; [apply H|intros; apply consumes_lift].
  - eapply post_bind; [apply H|intros a Ia]. eapply post_weaken; [apply post_lift|]. cbv beta. intros b E. eapply K2; eauto.
Qed.
(** a CONT record that holds fields and counts of what follows *)
Lemma cod_headed {A} (hd : A -> cont) (R I : A -> Prop) (rd : cont -> Z -> Z -> Z -> M A) pr nc :
  (forall x, R x -> I x -> okcont (hd x)) -> (forall c, cod (fun x => R x /\ c = hd x) I (rd c) pr nc) ->
  cod R I (fun mat mf mt => c <- rd_cont mat mf mt ;; rd c mat mf mt) (fun x mat mf mt => pr_cont (hd x) mat mf mt ++ pr x mat mf mt) (fun x => 1 + nc x).
Proof.
  intros He H. split; intros mat mf mt.
  - intros x G Rx Ix. eapply reads_bind; [apply reads_cont; [now apply He|now apply good_oktail]|cbv beta]. now apply (H (hd x)).
  - intros x G Rx Ix. apply layout_app; [apply layout_cont; auto using good_oktail, okcont_pr|now apply (H (hd x))].
  - apply consumes_bind; [apply cod_cont|intros c; apply (H c)].
  - eapply post_bind; [apply post_true|intros c _; apply (H c)].
Qed.
(** a counted loop: a negative count reads nothing *)
Lemma cod_count {A} rep inv (rd : Z -> Z -> Z -> M A) pr nc n : cod rep inv rd pr nc ->
  cod (fun l => Forall rep l /\ len l = i32 n) (many_of inv) (fun mat mf mt => rd_n (rd mat mf mt) (Z.to_nat (i32 n))) (pr_all pr) (nc_all nc).
Proof.
  intros [H1 H2 H3 H4]. split; intros mat mf mt.
  - intros l G [R L] [I1 I2]. rewrite <- L. unfold len. rewrite Nat2Z.id. apply reads_rd_n. rewrite Forall_forall in *. intros x Hx. apply H1; auto.
  - intros l G [R L] [I1 I2]. apply (layout_flat_map (fun c => pr c mat mf mt)). rewrite Forall_forall in *. intros x Hx. apply H2; auto.
  - apply consumes_rd_n. apply H3.
  - eapply post_weaken; [apply post_rd_n, H4|]. cbv beta. intros l [F L]. split; [exact F|]. assert (K := i32_range n). unfold int32, len in *. lia.
Qed.
Lemma cod_pair {A B} RA IA (rdA : Z -> Z -> Z -> M A) prA ncA RB IB (rdB : Z -> Z -> Z -> M B) prB ncB :
  cod RA IA rdA prA ncA -> cod RB IB rdB prB ncB ->
  cod (fun c => RA (fst c) /\ RB (snd c)) (fun c => IA (fst c) /\ IB (snd c))
    (fun mat mf mt => a <- rdA mat mf mt ;; b <- rdB mat mf mt ;; ret (a, b))
    (fun c mat mf mt => prA (fst c) mat mf mt ++ prB (snd c) mat mf mt) (fun c => ncA (fst c) + ncB (snd c)).
Proof.
  intros HA HB. apply (cod_dep pair fst snd RA IA rdA prA ncA (fun _ => RB) (fun _ => IB) (fun _ => rdB) (fun _ => prB) (fun _ => ncB)); auto. now intros [].
Qed.

(** ** the checks accept exactly the consistent lists *)
Lemma check_pairs_spec l : check_pairs l = Val tt <-> inv_pairs l.
Proof.
  unfold check_pairs, inv_pairs. rewrite <- size_tab_spec. destruct (lb_lt (i32 (lL2 l)) (i32 (lL1 l))) eqn:E.
  - split; [|tauto]. intros K. split; [|exact K]. exists (i32 (lL2 l)), (i32 (lL1 l)). split; [apply as_int_i32|]. split; [apply as_int_i32|].
    unfold lb_lt in E. revert E. generalize (i32 (lL2 l)) (i32 (lL1 l)). intros lb lt E.
    destruct ((lb =? 0) || (lb =? 1) || (lb =? 2) || (lb =? 8) || (lb =? 9)) eqn:E1; [lia|]. destruct ((lb =? 3) || (lb =? 4)) eqn:E2; [lia|discriminate].
  - split; [discriminate|]. intros [(lb & lt & A & B & K) _]. apply as_int_get in A, B. rewrite A, B in E. unfold lb_lt in E.
    destruct ((lb =? 0) || (lb =? 1) || (lb =? 2) || (lb =? 8) || (lb =? 9)) eqn:E1; [lia|]. destruct ((lb =? 3) || (lb =? 4)) eqn:E2; lia.
Qed.
Lemma quot2 a b : Z.even a = true -> Z.quot a 2 = b <-> a = 2 * b.
Proof.
  intros E. apply Z.even_spec in E. destruct E as [k ->]. rewrite Z.mul_comm, Z.quot_mul by lia. lia.
Qed.
Lemma even_pred n : Z.even (n * (n - 1)) = true.
Proof. rewrite Z.even_mul, Z.even_sub. destruct (Z.even n); reflexivity. Qed.
Lemma even_succ n : Z.even (n * (n + 1)) = true.
Proof. rewrite Z.even_mul, Z.even_add. destruct (Z.even n); reflexivity. Qed.
Lemma size_square_spec ls ne nt : size_square ls ne nt = Val tt <-> square_ok ls ne nt.
Proof.
  unfold size_square, square_ok. split.
  - intros E. apply obind_val in E. destruct E as (a & E1 & E). apply int_op_val in E1. destruct E1 as [-> I1].
    apply obind_val in E. destruct E as (p & E2 & E). apply int_op_val in E2. destruct E2 as [-> I2].
    split; [exact I1|]. split; [exact I2|]. destruct (Z.eqb_spec ls 0) as [Q|Q]; cbn [negb] in E; apply obind_val in E; destruct E as (p & E & K);
      apply int_op_val in E; destruct E as [-> I3]; apply ensure_val in K.
    + right. split; [exact Q|lia].
    + left. split; [exact Q|]. split; [exact I3|]. apply Z.eqb_eq in K. symmetry in K. apply quot2 in K; [lia|apply even_pred].
  - intros (I1 & I2 & K). apply obind_val. exists (nt - ne). split; [now apply int_op_val|]. apply obind_val. exists (ne - 1). split; [now apply int_op_val|].
    destruct K as [(Q & I3 & K)|(Q & K)].
    + destruct (Z.eqb_spec ls 0); [contradiction|]. cbn [negb]. apply obind_val. exists (ne * (ne - 1)). split; [now apply int_op_val|]. apply ensure_val.
      apply Z.eqb_eq. symmetry. apply quot2; [apply even_pred|lia].
    + rewrite Q. cbn [negb Z.eqb]. apply obind_val. exists ((ne - 1) * (ne - 1)). split; [apply int_op_val; rewrite <- K; auto|]. apply ensure_val. lia.
Qed.
Lemma check_square_spec l : check_square l = Val tt <-> inv_square l.
Proof.
  unfold check_square, inv_square. rewrite as_int_eq. destruct (Z.eqb_spec (i32 (lL2 l)) 5) as [E|E]; [|split; [discriminate|tauto]]. rewrite size_square_spec. split.
  - intros K. split; [exact E|]. exists (i32 (lL1 l)), (i32 (lN2 l)), (i32 (len (lB l))). rewrite !as_int_eq. auto.
  - intros (_ & ls & ne & nt & A & B & C & K). apply as_int_get in A, B, C. unfold npl. fold (len (lB l)). now rewrite A, B, C.
Qed.
Lemma check_square35_spec l : check_square35 l = Val tt <-> inv_square35 l.
Proof.
  unfold check_square35, inv_square35. rewrite as_int_eq. destruct (Z.eqb_spec (i32 (lL2 l)) 7) as [E|E]; [|split; [discriminate|tauto]]. rewrite size_square_spec. split.
  - intros K. split; [exact E|]. exists (i32 (lN2 l)), (i32 (len (lB l))). rewrite !as_int_eq. auto.
  - intros (_ & ne & nt & B & C & K). apply as_int_get in B, C. unfold npl. fold (len (lB l)). now rewrite B, C.
Qed.
Lemma check_rect_spec l : check_rect l = Val tt <-> inv_rect l.
Proof.
  unfold check_rect, inv_rect. rewrite as_int_eq. destruct (Z.eqb_spec (i32 (lL2 l)) 6) as [E|E]; [|split; [discriminate|tauto]]. unfold npl. fold (len (lB l)). split.
  - intros K. split; [exact E|]. apply obind_val in K. destruct K as (a & E1 & K). apply int_op_val in E1. destruct E1 as [-> I1].
    destruct (Z.eqb_spec (i32 (lN2 l)) 0) as [|N]; [discriminate|].
    destruct (Z.eqb_spec (i32 (len (lB l)) - 1) (-2147483648)), (Z.eqb_spec (i32 (lN2 l)) (-1)); cbn [andb] in K; try discriminate;
      (apply ensure_val, Z.eqb_eq in K; exists (i32 (lN2 l)), (i32 (len (lB l))); split; [apply as_int_i32|]; split; [apply as_int_i32|]; split; [exact N|]; split; [exact I1|]; split; [lia|];
       apply Z.rem_divide in K; [|exact N]; destruct K as [q K]; exists q; lia).
  - intros (_ & ner & nt & A & B & N & I1 & X & nec & K). apply as_int_get in A, B. rewrite A, B. apply obind_val. exists (nt - 1). split; [now apply int_op_val|].
    destruct (Z.eqb_spec ner 0); [contradiction|]. 
    replace ((nt - 1 =? -2147483648) && (ner =? -1)) with false by lia. apply ensure_val, Z.eqb_eq, Z.rem_divide; [exact N|]. exists nec. lia.
Qed.
Lemma mk_explicit_spec l e : mk_explicit l = Val e <-> list_of e = l /\ inv_explicit e.
Proof.
  unfold mk_explicit, is_pairs. split.
  - intros E. destruct (((0 <=? lL2 l) && (lL2 l <=? 4)) || (lL2 l =? 8) || (lL2 l =? 9)) eqn:P.
    + apply obind_val in E. destruct E as ([] & E & K). injection K as <-. apply check_pairs_spec in E. split; [reflexivity|]. split; [lia|exact E].
    + destruct (Z.eqb_spec (lL2 l) 5) as [Q|].
      * apply obind_val in E. destruct E as ([] & E & K). injection K as <-. apply check_square_spec in E. split; [reflexivity|]. split; [exact Q|exact E].
      * destruct (Z.eqb_spec (lL2 l) 6) as [Q|]; [|discriminate].
        apply obind_val in E. destruct E as ([] & E & K). injection K as <-. apply check_rect_spec in E. split; [reflexivity|]. split; [exact Q|exact E].
  - intros [<- I]. destruct e as [l|l|l]; cbn [list_of]; destruct I as [Q K].
    + replace (((0 <=? lL2 l) && (lL2 l <=? 4)) || (lL2 l =? 8) || (lL2 l =? 9)) with true by lia. apply check_pairs_spec in K. rewrite K. reflexivity.
    + rewrite Q. cbn [Z.leb Z.eqb andb orb Z.compare Pos.compare Pos.compare_cont Pos.eqb]. apply check_square_spec in K. rewrite K. reflexivity.
    + rewrite Q. cbn [Z.leb Z.eqb andb orb Z.compare Pos.compare Pos.compare_cont Pos.eqb]. apply check_rect_spec in K. rewrite K. reflexivity.
Qed.
Lemma cod_explicit : cod rep_explicit inv_explicit rd_explicit pr_explicit nc_explicit.
Proof.
  apply (cod_map mk_explicit list_of endf_list any rep_explicit inv_explicit rd_list pr_list nc_list cod_list).
  - intros b R I. split; [exact R|]. split; [exact Logic.I|]. now apply mk_explicit_spec.
  - intros a b _ E. now apply mk_explicit_spec in E.
Qed.

(** ** derived covariances *)
Lemma ok_small_cont a b k1 k2 k3 k4 : okr a -> okr b -> int32 k1 -> int32 k2 -> int32 k3 -> int32 k4 -> okcont (mkcont a b k1 k2 k3 k4).
Proof.
  intros Ra Rb H1 H2 H3 H4. unfold okcont. cbn [c1 c2 l1 l2 n1 n2]. split; [exact Ra|]. split; [exact Rb|].
  split; [|split; [|split]]; (apply in_cols_fits; [lia|now apply cols32]).
Qed.
Lemma cod_nc {A} (R I : A -> Prop) (rd : Z -> Z -> Z -> M A) pr nc nc' : cod R I rd pr nc -> (forall x, nc' x = nc x) -> cod R I rd pr nc'.
Proof.
  intros [H1 H2 H3 H4] E. split; intros mat mf mt; auto.
  - intros x G Rx Ix. rewrite E. now apply H1.
  - intros x G Rx Ix. rewrite E. now apply H2.
Qed.
Lemma okr_rzero : okr rzero.
Proof. split; reflexivity. Qed.
Lemma int32_0 : int32 0. Proof. unfold int32. lia. Qed.
Lemma cod_derived : cod rep_derived inv_derived rd_derived pr_derived nc_derived.
Proof.
  refine (cod_headed (fun d => mkcont rzero rzero 0 (LTY d) 0 0) rep_derived inv_derived (fun c mat mf mt =>
     if l2 c =? 0 then l <- rd_list mat mf mt ;; ret (Redundant l)
     else if (1 <=? l2 c) && (l2 c <=? 3) then l <- rd_list mat mf mt ;; ret (Ratio (l2 c) l)
     else throw EStd) (fun d => pr_list (list_ofd d)) (fun d => nc_list (list_ofd d)) _ _).
  - intros d R I. apply ok_small_cont; try apply okr_rzero; try apply int32_0. unfold int32. destruct d; cbn in *; lia.
  - intros c. destruct (Z.eqb_spec (l2 c) 0) as [E|E].
    + eapply (cod_inj Redundant); [apply cod_list|reflexivity|reflexivity| |intros; exact I].
      intros d [R ->] I. cbn [l2] in E. destruct d as [l|n l]; cbn in *; [|lia]. exists l. auto.
    + destruct ((1 <=? l2 c) && (l2 c <=? 3)) eqn:E2.
      * eapply (cod_inj (Ratio (l2 c))); [apply cod_list|reflexivity|reflexivity| |].
        -- intros d [R ->] I. cbn [l2] in *. destruct d as [l|n l]; cbn in *; [lia|]. exists l. auto.
        -- intros l _. cbn. lia.
      * apply cod_throw. intros d [R ->] I. cbn [l2] in *. destruct d as [l|n l]; cbn in *; lia.
Qed.

(** ** reaction blocks *)
Lemma cast_int_val x z : cast_int x = Val z <-> z = round_int x /\ int32 (round_int x).
Proof. apply int_op_val. Qed.
Lemma cast_of_int z : Z.abs z < 10 ^ 7 -> cast_int (of_int z) = Val z.
Proof. intros H. apply cast_int_val. rewrite round_of_int by lia. split; [reflexivity|unfold int32; lia]. Qed.
Lemma i32_isize {A} (l : list A) : len l < 2 ^ 31 -> i32 (isize l) = len l.
Proof. intros H. rewrite isize_len by exact H. apply i32_id, int32_len, H. Qed.
Lemma int32_isize {A} (l : list A) : int32 (isize l).
Proof. apply i32_range. Qed.
Lemma cod_block : cod rep_block inv_block rd_block pr_block nc_block.
Proof.
  refine (cod_nc _ _ _ _ _ _ (cod_headed block_head rep_block inv_block (fun c mat mf mt =>
    ds <- rd_n (rd_derived mat mf mt) (Z.to_nat (i32 (n1 c))) ;; es <- rd_all rd_explicit (n2 c) mat mf mt ;; lift (mk_block c (ds, es)))
    (fun b mat mf mt => pr_all pr_derived (b_nc b) mat mf mt ++ pr_all pr_explicit (b_ni b) mat mf mt)
    (fun b => nc_all nc_derived (b_nc b) + nc_all nc_explicit (b_ni b)) _ _) _).
  - intros b (R1 & R2 & _) (I1 & I2 & _). apply ok_small_cont; try apply okr_of_int; auto using int32_isize.
  - intros c. refine (cod_ext _ _ _ _ _ _ (cod_map (mk_block c) (fun b => (b_nc b, b_ni b)) _ _ _ _ _ _ _
      (cod_pair _ _ _ _ _ _ _ _ _ _ (cod_count _ _ _ _ _ (n1 c) cod_derived) (cod_all _ _ _ _ _ (n2 c) cod_explicit)) _ _) _).
    + intros b [(R1 & R2 & R3 & R4) ->] (I1 & I2 & (I3 & I4) & (I5 & I6)). cbn [fst snd block_head c1 c2 l1 l2 n1 n2].
      rewrite !i32_isize by assumption. split; [auto|]. split; [unfold many_of; auto|]. unfold mk_block, block_head. cbn [fst snd c1 c2 l1 l2 n1 n2].
      rewrite !cast_of_int, !i32_id by assumption. cbn [obind]. now destruct b.
    + intros [ds es] b [I1 [I2 I3]] E. cbn [fst snd] in *. unfold mk_block in E. apply obind_val in E. destruct E as (a & _ & E). apply obind_val in E. destruct E as (a' & _ & E).
      injection E as <-. unfold inv_block. cbn [mat1 mt1 b_nc b_ni fst snd]. split; [apply i32_range|]. split; [apply i32_range|]. split; [exact I1|]. split; [exact I2|].
      rewrite I3. apply i32_pos_bound.
    + intros mat mf mt s. unfold bind. destruct (rd_n _ _ s); [|reflexivity..]. destruct (rd_all _ _ _ _ _ _); reflexivity.
  - intros b. unfold nc_block. lia.
Qed.
Lemma body_31 : body_cod sec_31 (Forall rep_block) (many_of inv_block).
Proof.
  split; [cbn; lia|exact I| |].
  - intros m R I. cbn. ints4. apply cols32, int32_isize.
  - intros h awr _. apply (cod_imp _ _ _ _ _ (cod_all _ _ _ _ _ (n2 (sbase h)) cod_block)).
    + intros l [R E] [I1 I2]. unfold head_ints in E. injection E as E1 E2 E3 E4. rewrite E4, i32_isize by exact I2. auto.
    + intros l [F L]. split; [exact F|]. rewrite L. apply i32_pos_bound.
Qed.
Lemma rt_31 : section_rt sec_31 (Forall rep_block) (many_of inv_block).
Proof. apply body_section, body_31. Qed.

(** a flag of the HEAD and a list *)
Lemma cod_flagged {A} f n (rep inv : A -> Prop) rd pr nc : cod rep inv rd pr nc ->
  cod (fun b => rep_flagged rep b /\ fst b = i32 f /\ len (snd b) = i32 n) (inv_flagged inv)
    (fun mat mf mt => l <- rd_all rd n mat mf mt ;; ret (i32 f, l)) (fun b => pr_all pr (snd b)) (fun b => nc_all nc (snd b)).
Proof.
  intros H. eapply (cod_inj (fun l => (i32 f, l))); [exact (cod_all _ _ _ _ _ n H)|reflexivity|reflexivity| |].
  - intros [g l] (R & E & L) (I1 & I2). cbn [fst snd] in *. exists l. subst g. destruct I2. auto.
  - intros l [F L]. split; [apply i32_range|]. split; [exact F|]. cbn [snd]. rewrite L. apply i32_pos_bound.
Qed.
Lemma body_33 : body_cod sec_33 (rep_flagged rep_block) (inv_flagged inv_block).
Proof.
  split; [cbn; lia|exact I| |].
  - intros m R [I1 I2]. cbn. ints4; [now apply cols32|apply cols32, int32_isize].
  - intros h awr _. apply (cod_imp _ _ _ _ _ (cod_flagged (l2 (sbase h)) (n2 (sbase h)) _ _ _ _ _ cod_block)); [|auto].
    intros [f l] [R E] [I1 [I2 I3]]. cbn in E. unfold head_ints in E. injection E as E1 E2 E3 E4. cbn [fst snd] in *. rewrite E2, E4, i32_isize, i32_id by assumption.
    split; [|split; [exact I1|split; assumption]]. auto.
Qed.
Lemma rt_33 : section_rt sec_33 (rep_flagged rep_block) (inv_flagged inv_block).
Proof. apply body_section, body_33. Qed.

(** ** 40 *)
Lemma cod_level : cod rep_level inv_level rd_level pr_level nc_level.
Proof.
  refine (cod_headed level_head rep_level inv_level (fun c mat mf mt =>
    bs <- rd_all rd_block (n2 c) mat mf mt ;; ret (mklevel (c1 c) (c2 c) (i32 (l1 c)) (i32 (l2 c)) bs)) (fun v => pr_all pr_block (lv_reactions v)) (fun v => nc_all nc_block (lv_reactions v)) _ _).
  - intros v (R1 & R2 & _) (I1 & I2 & _). apply ok_small_cont; auto using endf_okr, int32_isize, int32_0.
  - intros c. eapply (cod_inj (mklevel (c1 c) (c2 c) (i32 (l1 c)) (i32 (l2 c)))); [exact (cod_all _ _ _ _ _ (n2 c) cod_block)|reflexivity|reflexivity| |].
    + intros v [(R1 & R2 & R3) ->] (I1 & I2 & I3 & I4). exists (lv_reactions v). unfold level_head. cbn [c1 c2 l1 l2 n1 n2]. rewrite !i32_id, i32_isize by assumption.
      split; [now destruct v|]. auto.
    + intros l [F L]. unfold inv_level. cbn [lv_izap lv_lfs lv_reactions]. split; [apply i32_range|]. split; [apply i32_range|]. split; [exact F|]. rewrite L. apply i32_pos_bound.
Qed.
Lemma body_40 : body_cod sec_40 (rep_flagged rep_level) (inv_flagged inv_level).
Proof.
  split; [cbn; lia|exact I| |].
  - intros m R [I1 I2]. cbn. ints4; [now apply cols32|apply cols32, int32_isize].
  - intros h awr _. apply (cod_imp _ _ _ _ _ (cod_flagged (l1 (sbase h)) (n1 (sbase h)) _ _ _ _ _ cod_level)); [|auto].
    intros [f l] [R E] [I1 [I2 I3]]. cbn in E. unfold head_ints in E. injection E as E1 E2 E3 E4. cbn [fst snd] in *. rewrite E1, E3, i32_isize, i32_id by assumption.
    split; [|split; [exact I1|split; assumption]]. auto.
Qed.
Lemma rt_40 : section_rt sec_40 (rep_flagged rep_level) (inv_flagged inv_level).
Proof. apply body_section, body_40. Qed.

(** ** 35 *)
Lemma body_35 : body_cod sec_35 (Forall endf_list) (many_of inv_square35).
Proof.
  split; [cbn; lia|exact I| |].
  - intros m R I. cbn. ints4. apply cols32, int32_isize.
  - intros h awr _. apply (cod_imp _ _ _ _ _ (cod_all _ _ _ _ _ (n1 (sbase h)) (cod_checked _ _ check_square35_spec))).
    + intros l [R E] [I1 I2]. unfold head_ints in E. injection E as E1 E2 E3 E4. rewrite E3, i32_isize by exact I2. auto.
    + intros l [F L]. split; [exact F|]. rewrite L. apply i32_pos_bound.
Qed.
Lemma rt_35 : section_rt sec_35 (Forall endf_list) (many_of inv_square35).
Proof. apply body_section, body_35. Qed.

(** ** 34 *)
Lemma cod_legblock : cod rep_legblock inv_legblock rd_legblock pr_legblock nc_legblock.
Proof.
  refine (cod_headed leg_head rep_legblock inv_legblock (fun c mat mf mt =>
    es <- rd_all rd_explicit (n2 c) mat mf mt ;; ret (mklegblock (i32 (l1 c)) (i32 (l2 c)) (i32 (n1 c)) es)) (fun b => pr_all pr_explicit (lg_data b)) (fun b => nc_all nc_explicit (lg_data b)) _ _).
  - intros v R (I1 & I2 & I3 & _). apply ok_small_cont; auto using okr_rzero, int32_isize.
  - intros c. eapply (cod_inj (mklegblock (i32 (l1 c)) (i32 (l2 c)) (i32 (n1 c)))); [exact (cod_all _ _ _ _ _ (n2 c) cod_explicit)|reflexivity|reflexivity| |].
    + intros v [R3 ->] (I1 & I2 & I3 & I4 & I5). exists (lg_data v). unfold leg_head. cbn [c1 c2 l1 l2 n1 n2]. rewrite !i32_id, i32_isize by assumption.
      split; [now destruct v|]. auto.
    + intros l [F L]. unfold inv_legblock. cbn [lg_l lg_l1 lg_lct lg_data]. split; [apply i32_range|]. split; [apply i32_range|]. split; [apply i32_range|]. split; [exact F|]. rewrite L. apply i32_pos_bound.
Qed.
Lemma made_for_spec mt b : len (b34_blocks b) < 2 ^ 31 -> made_for mt b <-> fits_section mt b.
Proof.
  intros L. unfold made_for, fits_section, size_block34. rewrite isize_len by exact L. set (nl := b34_nl b). assert (P := len_nonneg (b34_blocks b)). destruct (mt =? b34_mt1 b).
  - destruct (Z.eqb_spec nl (b34_nl1 b)) as [E|E]; [|split; [discriminate|intros [? _]; congruence]]. split.
    + intros K. apply obind_val in K. destruct K as (a & K1 & K). apply int_op_val in K1. destruct K1 as [-> J1].
      apply obind_val in K. destruct K as (a & K1 & K). apply int_op_val in K1. destruct K1 as [-> J2]. apply ensure_val, Z.eqb_eq, quot2 in K; [|apply even_succ]. auto.
    + intros (_ & J1 & J2 & K). apply obind_val. exists (nl + 1). split; [now apply int_op_val|]. apply obind_val. exists (nl * (nl + 1)). split; [now apply int_op_val|].
      apply ensure_val, Z.eqb_eq, quot2; [apply even_succ|lia].
  - split.
    + intros K. apply obind_val in K. destruct K as (a & K1 & K). apply int_op_val in K1. destruct K1 as [-> J1]. apply ensure_val in K. lia.
    + intros K. apply obind_val. exists (nl * b34_nl1 b). split; [apply int_op_val; split; [reflexivity|unfold int32; lia]|]. apply ensure_val. lia.
Qed.
Lemma long_op_val z : -9223372036854775808 <= z < 9223372036854775808 -> long_op z = Val z.
Proof. intros H. unfold long_op, in64. replace ((_ <=? z) && (z <? _)) with true by lia. reflexivity. Qed.
Lemma int32_prod a b : int32 a -> int32 b -> -9223372036854775808 <= a * b < 9223372036854775808.
Proof. unfold int32. nia. Qed.
Lemma count34_head mt b : inv_block34 b -> made_for mt b -> count34 mt (head34 b) = Val (len (b34_blocks b)).
Proof.
  intros (I1 & I2 & I3 & I4 & I5) M. apply made_for_spec in M; [|exact I5]. unfold fits_section in M. unfold count34, head34. cbn [l2 n1 n2].
  destruct (mt =? b34_mt1 b).
  - destruct M as (E & J1 & J2 & K). rewrite long_op_val by (unfold int32 in *; lia). cbn [obind]. rewrite E, long_op_val by (unfold int32 in *; lia). cbn [obind]. f_equal.
    apply quot2; [apply even_succ|lia].
  - rewrite long_op_val by (apply int32_prod; assumption). now rewrite M.
Qed.
Lemma make_block34_val mt mt1 nl nl1 bs b : make_block34 mt mt1 nl nl1 bs = Val b <-> b = mkblock34 mt1 nl nl1 bs /\ made_for mt b.
Proof.
  unfold make_block34. rewrite obind_val. split.
  - intros ([] & E & K). injection K as <-. split; [reflexivity|exact E].
  - intros [-> M]. exists tt. split; [exact M|reflexivity].
Qed.
Lemma cod_block34 sec : cod (fun b => rep_block34 b /\ made_for sec b) inv_block34 (rd_block34 sec) pr_block34 nc_block34.
Proof.
  refine (cod_headed head34 _ inv_block34 (fun c mat mf mt =>
    n <- lift (count34 sec c) ;; bs <- rd_all rd_legblock n mat mf mt ;; lift (make_block34 sec (i32 (l2 c)) (i32 (n1 c)) (i32 (n2 c)) bs)) (fun b => pr_all pr_legblock (b34_blocks b)) (fun b => nc_all nc_legblock (b34_blocks b)) _ _).
  - intros b [R M] (I1 & I2 & I3 & _). apply ok_small_cont; auto using okr_rzero, int32_0.
  - intros c. split; intros mat mf mt.
    + intros b G [[R M] ->] I. rewrite (count34_head sec b I M). destruct I as (I1 & I2 & I3 & I4 & I5). 
      eapply reads_eq; [|reflexivity|reflexivity|].
      * refine (reads_bind (lift (Val (len (b34_blocks b)))) _ [] _ (len (b34_blocks b)) b 0 _ (reads_ret _) _). cbv beta.
        eapply reads_bind_r; [exact (co_reads _ _ _ _ _ (cod_all _ _ _ _ _ (len (b34_blocks b)) cod_legblock) mat mf mt (b34_blocks b) G R (conj I4 (eq_sym (i32_id _ (int32_len _ I5)))))|].
        cbv beta. assert (E : make_block34 sec (i32 (l2 (head34 b))) (i32 (n1 (head34 b))) (i32 (n2 (head34 b))) (b34_blocks b) = Val b).
        { apply make_block34_val. unfold head34. cbn [l2 n1 n2]. rewrite !i32_id by assumption. split; [now destruct b|exact M]. }
        rewrite E. apply reads_ret.
      * lia.
    + intros b G [[R M] ->] (I1 & I2 & I3 & I4 & I5).
      exact (co_layout _ _ _ _ _ (cod_all _ _ _ _ _ (len (b34_blocks b)) cod_legblock) mat mf mt (b34_blocks b) G R (conj I4 (eq_sym (i32_id _ (int32_len _ I5))))).
    + apply consumes_bind; [apply consumes_lift|intros n]. apply consumes_bind; [apply (co_consumes _ _ _ _ _ (cod_all _ _ _ _ _ n cod_legblock))|intros; apply consumes_lift].
    + eapply post_bind; [apply post_true|intros n _]. eapply post_bind; [apply (co_post _ _ _ _ _ (cod_all _ _ _ _ _ n cod_legblock))|cbv beta; intros bs [F L]].
      eapply post_weaken; [apply post_lift|]. cbv beta. intros b E. apply make_block34_val in E. destruct E as [-> _]. unfold inv_block34. cbn [b34_mt1 b34_nl b34_nl1 b34_blocks].
      split; [apply i32_range|]. split; [apply i32_range|]. split; [apply i32_range|]. split; [exact F|]. rewrite L. apply i32_pos_bound.
Qed.
Lemma post_made34 sec mat mf mt : post (rd_block34 sec mat mf mt) (made_for sec).
Proof.
  unfold rd_block34. eapply post_bind; [apply post_true|intros c _]. eapply post_bind; [apply post_true|intros n _]. eapply post_bind; [apply post_true|intros bs _].
  eapply post_weaken; [apply post_lift|]. cbv beta. intros b E. now apply make_block34_val in E.
Qed.
Lemma body_34 : body_codm sec_34 (rep_flagged rep_block34) (inv_flagged inv_block34).
Proof.
  split; [cbn; lia|exact I| | |].
  - intros m R [I1 I2]. cbn. ints4; [now apply cols32|apply cols32, int32_isize].
  - intros h awr _. apply (cod_imp _ _ _ _ _ (cod_flagged (l2 (sbase h)) (n2 (sbase h)) _ _ _ _ _ (cod_block34 (smt h)))); [|auto].
    intros [f l] (R & A & E) [I1 [I2 I3]]. cbn in E. unfold head_ints in E. injection E as E1 E2 E3 E4. cbn in A. unfold rep_flagged in *. cbn [fst snd] in *. rewrite E2, E4, i32_isize, i32_id by assumption.
    split; [|split; [exact I1|split; assumption]]. split; [|auto]. apply Forall_and2; [exact R|exact A].
  - intros h mat mf. cbn [sec_34 k_read]. eapply post_bind with (Q := Forall (made_for (smt h))).
    + unfold rd_all, rd_sequence. eapply post_bind; [apply post_true|intros _ _]. eapply post_weaken; [apply post_rd_n, post_made34|cbv beta; tauto].
    + intros l F. apply post_ret. exact F.
Qed.
Lemma rt_34 : section_rt sec_34 (rep_flagged rep_block34) (inv_flagged inv_block34).
Proof. apply bodym_section, body_34. Qed.
