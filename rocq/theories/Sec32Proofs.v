(** Sec32Proofs.v -- File 32 satisfies [section_rt]; no undefined behaviour on tame texts. *)
From Coq Require Import ZifyBool ZifyNat.
From Verif Require Import Base Disco DiscoProofs Records RecordProofs RecordRT RecordSound Layout
  RealRound RealProofs Spec Normal LineFacts Sections SecSpec Codec SectionProofs SecKit CodecKit
  Sec9 Sec9Spec Sec9Proofs Sec4Spec Sec4Proofs Sec6 Sec6Spec Sec6Proofs Sec6Safe Sec33 Sec33Spec Sec33Proofs Sec33Safe Sec8 Sec8Spec Sec8Proofs
  Sec7 Sec7Spec Sec7Proofs Sec2 Sec2Spec Sec2Proofs Sec32 Sec32Corr Sec32Spec.
Open Scope Z_scope.

(** ** combinators *)
(** the first record is read twice *)
Lemma peek_ok mat mf mt s c s' : peek_cont mat mf mt s = Ok c s' <-> s' = s /\ exists s1, rd_cont mat mf mt s = Ok c s1.
Proof.
  unfold peek_cont. destruct (rd_cont mat mf mt s) as [x s1| |]; split; try discriminate; try solve [intros (_ & s1' & E); discriminate E].
  - intros E. injection E as <- <-. split; [reflexivity|]. exists s1. reflexivity.
  - intros [-> (s2 & E)]. injection E as <- _. reflexivity.
Qed.
Definition present {A} (o : option A) : bool := match o with Some _ => true | None => false end.
Lemma cod_when {A} rep inv (rd : Z -> Z -> Z -> M A) pr nc b : cod rep inv rd pr nc ->
  cod (fun o => (forall d, o = Some d -> rep d) /\ b = present o) (fun o => forall d, o = Some d -> inv d) (rd_when rd b) (pr_opt pr) (nc_opt nc).
Proof.
  intros H. unfold rd_when. destruct b.
  - eapply (cod_inj Some); [exact H|reflexivity|reflexivity| |].
    + intros [d|] [R E] J; [|discriminate E]. exists d. auto.
    + intros d J d' E. injection E as <-. exact J.
  - apply cod_ret; [|discriminate|reflexivity|reflexivity]. intros [d|] [_ E] _; [discriminate E|reflexivity].
Qed.
Lemma isr_present {A} (o : option A) : z2b (isr o) = present o. Proof. now destruct o. Qed.
Lemma int32_isr {A} (o : option A) : int32 (isr o). Proof. destruct o; unfold int32; cbn; lia. Qed.
Lemma cod_dap : cod endf_real any rd_dap pr_dap nc_dap.
Proof.
  refine (cod_ext _ _ _ _ _ _ (cod_map (fun c => Val (c2 c)) (fun x => mkcont rzero x 0 0 0 0) _ _ _ _ _ _ _ cod_cont _ _) _).
  - intros x R _. split; [|split; [exact I|reflexivity]]. unfold endf_cont, ints_fit. cbn [c1 c2 l1 l2 n1 n2].
    split; [left; split; reflexivity|]. split; [exact R|]. split; [cols|]. split; [cols|]. split; cols.
  - intros c x _ _. exact I.
  - reflexivity.
Qed.
Lemma cod_nothing : cod none any rd_no_dap pr_list nc_list.
Proof. apply cod_throw. intros x []. Qed.

(** ** the LIST records *)
Lemma check_rows_spec m l : 0 < m -> check_rows m l = Val tt <-> inv_rows m l.
Proof.
  intros Hm. unfold check_rows, inv_rows, npl. fold (len (lB l)). split.
  - intros E. apply obind_val in E. destruct E as ([] & E1 & E). apply obind_val in E. destruct E as ([] & E2 & E). apply obind_val in E. destruct E as (p & E3 & E).
    apply int_op_val in E3. destruct E3 as [-> B]. apply ensure_val in E1, E2, E. exists (i32 (lN2 l)). split; [lia|]. split; [apply as_int_i32|]. apply as_int_eq. lia.
  - intros (n & P & A & B). assert (F : int32 (m * n)) by apply B. apply as_int_get in A, B. rewrite A, B. apply obind_val. exists tt. split; [apply ensure_val; nia|].
    apply obind_val. exists tt. split; [apply ensure_val; lia|]. apply obind_val. exists (m * n). split; [apply int_op_val; auto|apply ensure_val; lia].
Qed.
Lemma check_limited_spec l : check_limited l = Val tt <-> inv_rows 18 l. Proof. apply check_rows_spec. lia. Qed.
Lemma check_uncertainties_spec l : check_uncertainties l = Val tt <-> inv_rows 12 l. Proof. apply check_rows_spec. lia. Qed.
Lemma even_product n : (n * (n + 1)) mod 2 = 0.
Proof.
  rewrite Z.mul_mod, Z.add_mod by lia. assert (H := Z.mod_pos_bound n 2). assert (K : n mod 2 = 0 \/ n mod 2 = 1) by lia.
  destruct K as [-> | ->]; reflexivity.
Qed.
Lemma quot_product n : 1 <= n -> 2 * Z.quot (n * (n + 1)) 2 = n * (n + 1).
Proof. intros H. rewrite Z.quot_div_nonneg by nia. assert (D := Z.div_mod (n * (n + 1)) 2). rewrite even_product in D. lia. Qed.
Lemma triangle_val n p : 1 <= n -> triangle n = Val p <-> int32 (n * (n + 1)) /\ 2 * p = n * (n + 1).
Proof.
  intros H. assert (Q := quot_product n H). unfold triangle. rewrite obind_val. split.
  - intros (m & E & K). apply int_op_val in E. destruct E as [-> B]. apply obind_val in K. destruct K as (q & K & J). apply int_op_val in K. destruct K as [-> C].
    split; [exact C|]. assert (p = Z.quot (n * (n + 1)) 2) by congruence. lia.
  - intros [C E]. exists (n + 1). split; [apply int_op_val; split; [reflexivity|unfold int32 in *; nia]|]. apply obind_val. exists (n * (n + 1)).
    split; [apply int_op_val; auto|]. f_equal. lia.
Qed.
Lemma check_triangle_spec l : check_triangle l = Val tt <-> inv_triangle l.
Proof.
  unfold check_triangle, inv_triangle, npl. fold (len (lB l)). split.
  - intros E. apply obind_val in E. destruct E as ([] & E1 & E). apply obind_val in E. destruct E as ([] & E2 & E). apply obind_val in E. destruct E as (p & E3 & E).
    apply ensure_val in E1, E2, E. apply triangle_val in E3; [|lia]. destruct E3 as [B C]. exists (i32 (lN2 l)), p. split; [lia|]. split; [apply as_int_i32|].
    split; [apply as_int_eq; lia|]. auto.
  - intros (n & p & P & A & B & C & D). apply as_int_get in A, B. rewrite A, B. apply obind_val. exists tt. split; [apply ensure_val; nia|].
    apply obind_val. exists tt. split; [apply ensure_val; lia|]. apply obind_val. exists p. split; [apply triangle_val; auto|apply ensure_val; lia].
Qed.
Lemma check_short_spec l : check_short l = Val tt <-> inv_short l.
Proof.
  unfold check_short, inv_short, npl. fold (len (lB l)). split.
  - intros E. apply obind_val in E. destruct E as ([] & E1 & E). apply obind_val in E. destruct E as ([] & E2 & E). apply obind_val in E. destruct E as ([] & E3 & E).
    apply ensure_val in E1, E2, E3. repeat (apply obind_val in E; let H := fresh in destruct E as (? & H & E); apply int_op_val in H; destruct H as [-> ?]). apply ensure_val in E.
    exists (i32 (lL1 l)), (i32 (lN2 l)), (i32 (len (lB l))). split; [lia|]. split; [lia|]. split; [apply as_int_i32|]. split; [apply as_int_i32|]. split; [apply as_int_i32|].
    split; [assumption|]. assert (Q := quot_product (i32 (lL1 l) * i32 (lN2 l)) ltac:(nia)). lia.
  - intros (m & n & p & P1 & P2 & A & B & C & D & E). assert (F : int32 p) by apply C. apply as_int_get in A, B, C. rewrite A, B, C.
    assert (Q := quot_product (m * n) ltac:(nia)). set (b := m * n) in *. assert (Pb : 1 <= b) by nia. assert (Bb : b * b <= b * (b + 1)) by nia.
    apply obind_val. exists tt. split; [apply ensure_val; nia|]. apply obind_val. exists tt. split; [apply ensure_val; lia|]. apply obind_val. exists tt. split; [apply ensure_val; lia|].
    unfold int32 in *. apply obind_val. exists (6 * n). split; [apply int_op_val; split; [reflexivity|unfold int32; nia]|]. apply obind_val. exists b. split; [apply int_op_val; split; [reflexivity|unfold int32; nia]|].
    apply obind_val. exists (b + 1). split; [apply int_op_val; split; [reflexivity|unfold int32; nia]|]. apply obind_val. exists (b * (b + 1)). split; [apply int_op_val; split; [reflexivity|exact D]|].
    apply obind_val. exists (6 * n + Z.quot (b * (b + 1)) 2). split; [apply int_op_val; split; [reflexivity|unfold int32; lia]|]. apply ensure_val. lia.
Qed.
Lemma check_parameters12_spec l : check_parameters12 l = true <-> inv_parameters12 l.
Proof.
  unfold check_parameters12, inv_parameters12, npl. fold (len (lB l)). split.
  - intros E. assert (P : 1 <= i32 (len (lB l))) by lia. assert (K : Z.rem (i32 (len (lB l))) 12 = 0) by lia.
    rewrite Z.rem_mod_nonneg in K by lia. assert (D := Z.div_mod (i32 (len (lB l))) 12). exists (i32 (len (lB l)) / 12). split; [lia|]. apply as_int_eq. lia.
  - intros (n & P & A). apply as_int_get in A. rewrite A. rewrite Z.rem_mod_nonneg by lia. replace (12 * n) with (n * 12) by lia. rewrite Z_mod_mult. lia.
Qed.
Lemma cod_list_if chk P : (forall l, chk l = true <-> P l) -> cod endf_list P (rd_list_if chk) pr_list nc_list.
Proof.
  intros H. refine (cod_imp _ _ _ _ _ (cod_require _ _ _ _ _ _ _ cod_list H) _ _ _ _).
  - intros x R K. exact (conj R (conj I K)).
  - intros x [_ K]. exact K.
Qed.

(** ** limited covariances *)
Lemma cod_limited : cod rep_limited inv_limited rd_limited pr_limited nc_limited.
Proof.
  refine (cod_nc _ _ _ _ _ _ (cod_headed limited_head rep_limited inv_limited (fun c mat mf mt =>
      d <- rd_when rd_dap (z2b (n2 c)) mat mf mt ;; ls <- rd_all (rd_checked check_limited) (n1 c) mat mf mt ;; lift (make_limited (c1 c) (c2 c) d ls))
    (fun x mat mf mt => pr_opt pr_dap (lm_dap x) mat mf mt ++ pr_all pr_list (lm_lvalues x) mat mf mt) (fun x => nc_opt nc_dap (lm_dap x) + nc_all nc_list (lm_lvalues x)) _ _) _).
  - intros x (R1 & R2 & _) _. apply ok_small_cont; auto using endf_okr, int32_0, int32_isize, int32_isr.
  - intros c. refine (cod_ext _ _ _ _ _ _ (cod_map (fun p => make_limited (c1 c) (c2 c) (fst p) (snd p)) (fun x => (lm_dap x, lm_lvalues x)) _ _ _ _ _ _ _
      (cod_pair _ _ _ _ _ _ _ _ _ _ (cod_when _ _ _ _ _ (z2b (n2 c)) cod_dap) (cod_all _ _ _ _ _ (n1 c) (cod_checked _ _ check_limited_spec))) _ _) _).
    + intros x [(R1 & R2 & R3 & R4) ->] (I1 & I2). cbn [fst snd limited_head c1 c2 n1 n2]. rewrite i32_isize, isr_present by lia. split; [auto|]. split; [split; [intros; exact I|auto]|].
      apply one_bind; [lia|]. split; [lia|now destruct x].
    + intros [d ls] x [_ [F L]] E. cbn [fst snd] in *. assert (B := i32_pos_bound (n1 c)). apply one_bind in E; [|lia]. destruct E as [P <-]. split; [exact F|cbn; lia].
    + intros mat mf mt s. unfold bind. destruct (rd_when _ _ _ _ _ _) as [d s1| |]; [|reflexivity..]. destruct (rd_all _ _ _ _ _ _); reflexivity.
  - intros x. unfold nc_limited. lia.
Qed.

(** ** general covariances *)
Lemma cod_short_rml : cod rep_short_rml inv_short_rml rd_short_rml pr_short_rml nc_short_rml.
Proof.
  refine (cod_nc _ _ _ _ _ _ (cod_headed short_rml_head rep_short_rml inv_short_rml (fun c mat mf mt =>
      gs <- rd_all (rd_list_if check_parameters) (l1 c) mat mf mt ;; m <- rd_checked check_triangle mat mf mt ;; ret (mkshort_rml gs m))
    (fun x mat mf mt => pr_all pr_list (sr_groups x) mat mf mt ++ pr_list (sr_matrix x) mat mf mt) (fun x => nc_all nc_list (sr_groups x) + nc_list (sr_matrix x)) _ _) _).
  - intros x _ _. apply ok_small_cont; auto using okr_rzero, int32_0, int32_isize.
  - intros c. refine (cod_ext _ _ _ _ _ _ (cod_map (fun p => Val (mkshort_rml (fst p) (snd p))) (fun x => (sr_groups x, sr_matrix x)) _ _ _ _ _ _ _
      (cod_pair _ _ _ _ _ _ _ _ _ _ (cod_all _ _ _ _ _ (l1 c) (cod_list_if _ _ check_parameters_spec)) (cod_checked _ _ check_triangle_spec)) _ _) _).
    + intros x [(R1 & R2) ->] ((I1 & I2) & I3). cbn [fst snd short_rml_head l1]. rewrite i32_isize by lia. split; [auto|]. split; [auto|]. now destruct x.
    + intros [gs m] x [[F L] K] E. cbn [fst snd] in *. injection E as <-. assert (B := i32_pos_bound (l1 c)). split; [split; [exact F|cbn; lia]|exact K].
    + intros mat mf mt s. unfold bind. destruct (rd_all _ _ _ _ _ _) as [d s1| |]; [|reflexivity..]. destruct (rd_checked _ _ _ _ _); reflexivity.
  - intros x. unfold nc_short_rml. lia.
Qed.
Lemma mk_long_val l e : mk_long l = Val e <-> list_of e = l /\ inv_long e.
Proof.
  unfold mk_long. split.
  - intros E. destruct (Z.leb_spec (-1) (lL2 l)); [destruct (Z.leb_spec (lL2 l) 2)|]; cbn [andb] in E.
    + apply obind_val in E. destruct E as ([] & E1 & E). apply check_pairs_spec in E1. assert (e = Pairs l) by congruence. subst e. clear E. split; [reflexivity|]. split; [|exact E1].
      destruct E1 as ((lb & lt & A & _ & B) & _). apply as_int_get in A. rewrite i32_id in A by (unfold int32; lia). lia.
    + destruct (Z.eqb_spec (lL2 l) 5); [|discriminate]. apply obind_val in E. destruct E as ([] & E1 & E). apply check_square_spec in E1. assert (e = Square l) by congruence. subst e. cbn. auto.
    + destruct (Z.eqb_spec (lL2 l) 5); [|discriminate]. apply obind_val in E. destruct E as ([] & E1 & E). apply check_square_spec in E1. assert (e = Square l) by congruence. subst e. cbn. auto.
  - intros [<- K]. destruct e as [l|l|l]; cbn [list_of inv_long] in *; [| |destruct K].
    + destruct K as [B K]. replace ((-1 <=? lL2 l) && (lL2 l <=? 2)) with true by lia. apply obind_val. exists tt. split; [now apply check_pairs_spec|reflexivity].
    + destruct K as [B K]. rewrite B. cbn [andb Z.leb Z.compare Pos.compare Pos.compare_cont Z.eqb Pos.eqb]. apply obind_val. exists tt. split; [now apply check_square_spec|reflexivity].
Qed.
Lemma cod_long : cod rep_explicit inv_long rd_long pr_explicit nc_explicit.
Proof.
  apply (cod_map mk_long list_of endf_list any rep_explicit inv_long rd_list pr_list nc_list cod_list).
  - intros b R K. split; [exact R|]. split; [exact I|]. now apply mk_long_val.
  - intros a b _ E. now apply mk_long_val in E.
Qed.
(** the second CONT record and what follows *)
Definition tail_head {S} (p : real * (list S * list explicit)) : cont := mkcont (fst p) rzero 0 0 (isize (fst (snd p))) (isize (snd (snd p))).
Lemma cod_general_tail {S} (repS invS : S -> Prop) rdS prS ncS : cod repS invS rdS prS ncS ->
  cod (fun p => endf_real (fst p) /\ Forall repS (fst (snd p)) /\ Forall rep_explicit (snd (snd p)))
    (fun p => many_of invS (fst (snd p)) /\ many_of inv_long (snd (snd p)))
    (fun mat mf mt => h <- rd_cont mat mf mt ;; ss <- rd_all rdS (n1 h) mat mf mt ;; ls <- rd_all rd_long (n2 h) mat mf mt ;; ret (c1 h, (ss, ls)))
    (fun p mat mf mt => pr_cont (tail_head p) mat mf mt ++ pr_all prS (fst (snd p)) mat mf mt ++ pr_all pr_explicit (snd (snd p)) mat mf mt)
    (fun p => 1 + (nc_all ncS (fst (snd p)) + nc_all nc_explicit (snd (snd p)))).
Proof.
  intros H. refine (cod_headed tail_head _ _ (fun h mat mf mt => ss <- rd_all rdS (n1 h) mat mf mt ;; ls <- rd_all rd_long (n2 h) mat mf mt ;; ret (c1 h, (ss, ls))) _ _ _ _).
  - intros p (R & _) _. apply ok_small_cont; auto using endf_okr, okr_rzero, int32_0, int32_isize.
  - intros h. refine (cod_ext _ _ _ _ _ _ (cod_map (fun q => Val (c1 h, q)) snd _ _ _ _ _ _ _
      (cod_pair _ _ _ _ _ _ _ _ _ _ (cod_all _ _ _ _ _ (n1 h) H) (cod_all _ _ _ _ _ (n2 h) cod_long)) _ _) _).
    + intros [a [ss ls]] [(R1 & R2 & R3) ->] ((I1 & I2) & (I3 & I4)). cbn [fst snd tail_head c1 n1 n2] in *. rewrite !i32_isize by lia. auto.
    + intros [ss ls] q [[F1 L1] [F2 L2]] E. cbn [fst snd] in *. assert (q = (c1 h, (ss, ls))) by congruence. subst q. cbn [fst snd]. clear E.
      assert (B1 := i32_pos_bound (n1 h)). assert (B2 := i32_pos_bound (n2 h)). split; (split; [assumption|lia]).
    + intros mat mf mt s. unfold bind. destruct (rd_all rdS _ _ _ _ _) as [d s1| |]; [|reflexivity..]. destruct (rd_all rd_long _ _ _ _ _); reflexivity.
Qed.
Lemma make_general_val {D S} awri spi ap (dap : option D) nls (ss : list S) ls x : len ss < 2 ^ 31 -> len ls < 2 ^ 31 ->
  make_general awri spi ap dap nls ss ls = Val x <-> x = mkgeneral awri spi ap dap nls ss ls.
Proof.
  intros H1 H2. unfold make_general. rewrite !isize_len by assumption. assert (P1 := len_nonneg ss). assert (P2 := len_nonneg ls).
  replace (len ss <? 0) with false by lia. replace (len ls <? 0) with false by lia. cbn. split; [intros E; injection E as <-; reflexivity|intros ->; reflexivity].
Qed.
Lemma cod_general {D S} (repD invD : D -> Prop) rdD prD ncD (repS invS : S -> Prop) rdS prS ncS :
  cod repD invD rdD prD ncD -> (forall d, invD d) -> cod repS invS rdS prS ncS ->
  cod (rep_general repD repS) (inv_general invS) (rd_general rdD rdS) (pr_general prD prS) (nc_general ncD ncS).
Proof.
  intros HD HI HS. refine (cod_nc _ _ _ _ _ _ (cod_headed general_head (rep_general repD repS) (inv_general invS) (fun c mat mf mt =>
      d <- rd_when rdD (z2b (n2 c)) mat mf mt ;; h <- rd_cont mat mf mt ;; ss <- rd_all rdS (n1 h) mat mf mt ;; ls <- rd_all rd_long (n2 h) mat mf mt ;;
      lift (make_general (c1 h) (c1 c) (c2 c) d (u32 (n1 c)) ss ls))
    (fun x mat mf mt => pr_opt prD (ge_dap x) mat mf mt ++ pr_cont (general_counts x) mat mf mt ++ pr_all prS (ge_short x) mat mf mt ++ pr_all pr_explicit (ge_long x) mat mf mt)
    (fun x => nc_opt ncD (ge_dap x) + (1 + (nc_all ncS (ge_short x) + nc_all nc_explicit (ge_long x)))) _ _) _).
  - intros x (_ & R1 & R2 & _) (I1 & _). unfold okcont, general_head. cbn [c1 c2 l1 l2 n1 n2]. split; [now apply endf_okr|]. split; [now apply endf_okr|].
    split; [|split; [|split]]; (apply in_cols_fits; [lia|]); try (apply cols32; unfold int32; lia); [|apply cols32, int32_isr].
    unfold in_cols. change (10 ^ Z.of_nat 11) with 100000000000. change (10 ^ (Z.of_nat 11 - 1)) with 10000000000. change (2 ^ 32) with 4294967296 in I1. lia.
  - intros c. refine (cod_ext _ _ _ _ _ _ (cod_map (fun p => make_general (fst (snd p)) (c1 c) (c2 c) (fst p) (u32 (n1 c)) (fst (snd (snd p))) (snd (snd (snd p))))
        (fun x => (ge_dap x, (ge_awri x, (ge_short x, ge_long x)))) _ _ _ _ _ _ _
      (cod_pair _ _ _ _ _ _ _ _ _ _ (cod_when _ _ _ _ _ (z2b (n2 c)) HD) (cod_general_tail _ _ _ _ _ HS)) _ _) _).
    + intros x [(R0 & R1 & R2 & R3 & R4 & R5) ->] (I1 & I2 & I3). cbn [fst snd general_head c1 c2 n1 n2]. rewrite isr_present, u32_id by lia. split; [auto|]. split; [split; [intros; apply HI|auto]|].
      apply make_general_val; [apply I2|apply I3|now destruct x].
    + intros [d [a [ss ls]]] x [_ [M1 M2]] E. cbn [fst snd] in *. apply make_general_val in E; [|apply M1|apply M2]. subst x. split; [apply u32_range|]. auto.
    + intros mat mf mt s. unfold bind. destruct (rd_when _ _ _ _ _ _) as [d s1| |]; [|reflexivity..]. destruct (rd_cont _ _ _ _) as [h s2| |]; [|reflexivity..].
      destruct (rd_all rdS _ _ _ _ _) as [ss s3| |]; [|reflexivity..]. destruct (rd_all rd_long _ _ _ _ _); reflexivity.
  - intros x. unfold nc_general. lia.
Qed.

(** ** compact R-matrix limited *)
Lemma cod_spin32 : cod rep_spin32 inv_spin32 rd_spin32 pr_spin32 nc_spin32.
Proof.
  refine (cod_ext _ _ _ _ _ _ (cod_map (fun p => Val (mkspin32 (fst p) (snd p))) (fun x => (sg_channels x, sg_parameters x)) _ _ _ _ _ _ _
      (cod_pair _ _ _ _ _ _ _ _ _ _ (cod_list_if _ _ check_channels_spec) (cod_list_if _ _ check_parameters12_spec)) _ _) _).
  - intros x [R1 R2] [I1 I2]. cbn [fst snd]. split; [auto|]. split; [auto|]. now destruct x.
  - intros [a b] x [I1 I2] E. cbn [fst snd] in *. assert (x = mkspin32 a b) by congruence. subst x. split; assumption.
  - intros mat mf mt s. unfold rd_spin32, bind. destruct (rd_list_if _ _ _ _ _) as [d s1| |]; [|reflexivity..]. destruct (rd_list_if _ _ _ _ _); reflexivity.
Qed.
Lemma cod_rml32 : cod rep_rml32 inv_rml32 rd_rml32 pr_rml32 nc_rml32.
Proof.
  refine (cod_ext _ _ _ _ _ _ (cod_map (fun p => make_rml32 (fst p) (snd p)) (fun x => (r32_pairs x, r32_groups x)) _ _ _ _ _ _ _
      (cod_dep pair fst snd endf_list inv_pairs_rml (rd_list_if check_pairs_rml) pr_list nc_list
        (fun _ => Forall rep_spin32) (fun pp gs => Forall inv_spin32 gs /\ len gs = i32 (lL2 pp)) (fun pp => rd_all rd_spin32 (lL2 pp)) (fun _ => pr_all pr_spin32) (fun _ => nc_all nc_spin32)
        (fun c => match c with (_, _) => eq_refl end) (fun _ _ => eq_refl) (fun _ _ => eq_refl)
        (cod_list_if _ _ check_pairs_rml_spec) (fun pp => cod_all _ _ _ _ _ (lL2 pp) cod_spin32)) _ _) _).
  - intros x [R1 R2] (I1 & I2 & I3 & I4). cbn [fst snd]. apply as_int_get in I2. split; [auto|]. split; [auto|]. apply one_bind; [lia|]. split; [lia|]. now destruct x.
  - intros [pp gs] x [I1 [I2 I3]] E. cbn [fst snd] in *. assert (B := i32_pos_bound (lL2 pp)). apply one_bind in E; [|lia]. destruct E as [P <-]. cbn.
    split; [exact I1|]. split; [apply as_int_eq; symmetry; exact I3|]. split; [exact I2|cbn; lia].
  - intros mat mf mt s. unfold rd_rml32, bind. destruct (rd_list_if _ _ _ _ _) as [d s1| |]; [|reflexivity..]. destruct (rd_all _ _ _ _ _ _); reflexivity.
Qed.

(** ** unresolved resonances *)
Lemma cod_unres32 : cod rep_unres32 inv_unres32 rd_unres32 pr_unres32 nc_unres32.
Proof.
  refine (cod_nc _ _ _ _ _ _ (cod_headed unres32_head rep_unres32 inv_unres32 (fun c mat mf mt =>
      ls <- rd_all (rd_checked check_independent) (n1 c) mat mf mt ;; m <- rd_checked check_triangle mat mf mt ;; ret (mkunres32 (c1 c) (c2 c) ls m))
    (fun x mat mf mt => pr_all pr_list (u32_lvalues x) mat mf mt ++ pr_list (u32_matrix x) mat mf mt) (fun x => nc_all nc_list (u32_lvalues x) + nc_list (u32_matrix x)) _ _) _).
  - intros x (R1 & R2 & _) _. apply ok_small_cont; auto using endf_okr, int32_0, int32_isize.
  - intros c. refine (cod_ext _ _ _ _ _ _ (cod_map (fun p => Val (mkunres32 (c1 c) (c2 c) (fst p) (snd p))) (fun x => (u32_lvalues x, u32_matrix x)) _ _ _ _ _ _ _
      (cod_pair _ _ _ _ _ _ _ _ _ _ (cod_all _ _ _ _ _ (n1 c) (cod_checked _ _ check_independent_spec)) (cod_checked _ _ check_triangle_spec)) _ _) _).
    + intros x [(R1 & R2 & R3 & R4) ->] ((I1 & I2) & I3). cbn [fst snd unres32_head c1 c2 n1]. rewrite i32_isize by lia. split; [auto|]. split; [auto|]. now destruct x.
    + intros [ls m] x [[F L] K] E. cbn [fst snd] in *. assert (x = mkunres32 (c1 c) (c2 c) ls m) by congruence. subst x. assert (B := i32_pos_bound (n1 c)). split; [split; [exact F|cbn; lia]|exact K].
    + intros mat mf mt s. unfold bind. destruct (rd_all _ _ _ _ _ _) as [d s1| |]; [|reflexivity..]. destruct (rd_checked _ _ _ _ _); reflexivity.
  - intros x. unfold nc_unres32. lia.
Qed.
(** ** covariances of the scattering radius *)
Lemma cod_radcov : cod (Forall rep_explicit) (many_of inv_explicit) rd_radcov pr_radcov nc_radcov.
Proof.
  refine (cod_headed radcov_head _ _ (fun c => rd_all rd_explicit (n2 c)) (pr_all pr_explicit) (nc_all nc_explicit) _ _).
  - intros x R _. apply ok_small_cont; auto using okr_rzero, int32_0, int32_isize.
  - intros c. refine (cod_imp _ _ _ _ _ (cod_all _ _ _ _ _ (n2 c) cod_explicit) _ _ _ _).
    + intros x [R ->] [I1 I2]. cbn [radcov_head n2]. rewrite i32_isize by lia. auto.
    + intros x [F L]. assert (B := i32_pos_bound (n2 c)). split; [exact F|lia].
Qed.

(** ** combinators without the lines *)
Lemma cdw_ext {A} R I (rd rd' : Z -> Z -> Z -> M A) pr nc : cdw R I rd pr nc ->
  (forall mat mf mt s, rd' mat mf mt s = rd mat mf mt s) -> cdw R I rd' pr nc.
Proof.
  intros [H1 H2 H4] E. split; intros mat mf mt.
  - intros x G Rx Ix rest ln. rewrite E. now apply H1.
  - exact (H2 mat mf mt).
  - intros s a s'. rewrite E. apply H4.
Qed.
Lemma cdw_imp {A} rep inv (rep' inv' : A -> Prop) rd pr nc : cdw rep inv rd pr nc ->
  (forall x, rep' x -> inv' x -> rep x /\ inv x) -> (forall x, inv x -> inv' x) -> cdw rep' inv' rd pr nc.
Proof.
  intros [H1 H2 H4] K1 K2. split; intros.
  - destruct (K1 x); auto.
  - destruct (K1 x); auto.
  - eapply post_weaken; eauto.
Qed.
Lemma cdw_nc {A} (R I : A -> Prop) (rd : Z -> Z -> Z -> M A) pr nc nc' : cdw R I rd pr nc -> (forall x, nc' x = nc x) -> cdw R I rd pr nc'.
Proof.
  intros [H1 H2 H4] E. split; intros mat mf mt; auto.
  - intros x G Rx Ix. rewrite E. now apply H1.
  - intros x G Rx Ix. rewrite E. now apply H2.
Qed.
Lemma cdw_map {A B} (mk : A -> out B) (un : B -> A) R I (R' I' : B -> Prop) (rd : Z -> Z -> Z -> M A) pr nc : cdw R I rd pr nc ->
  (forall b, R' b -> I' b -> R (un b) /\ I (un b) /\ mk (un b) = Val b) -> (forall a b, I a -> mk a = Val b -> I' b) ->
  cdw R' I' (fun mat mf mt => a <- rd mat mf mt ;; lift (mk a)) (fun b => pr (un b)) (fun b => nc (un b)).
Proof.
  intros H K1 K2. split; intros mat mf mt.
  - intros b G Rb Ib. destruct (K1 b Rb Ib) as (Ra & Ia & E). eapply reads_k; [eapply reads_bind_r; [now apply H|]|].
    + rewrite E. apply reads_ret.
    + lia.
  - intros b G Rb Ib. destruct (K1 b Rb Ib) as (Ra & Ia & E). now apply H.
  - eapply post_bind; [apply H|intros a Ia]. eapply post_weaken; [apply post_lift|]. cbv beta. intros b E. eauto.
Qed.
Lemma cdw_headed {A} (hd : A -> cont) (R I : A -> Prop) (rd : cont -> Z -> Z -> Z -> M A) pr nc :
  (forall x, R x -> I x -> okcont (hd x)) -> (forall c, cdw (fun x => R x /\ c = hd x) I (rd c) pr nc) ->
  cdw R I (fun mat mf mt => c <- rd_cont mat mf mt ;; rd c mat mf mt) (fun x mat mf mt => pr_cont (hd x) mat mf mt ++ pr x mat mf mt) (fun x => 1 + nc x).
Proof.
  intros He H. split; intros mat mf mt.
  - intros x G Rx Ix. eapply reads_bind; [apply reads_cont; [now apply He|now apply good_oktail]|cbv beta]. now apply (H (hd x)).
  - intros x G Rx Ix. apply layout_app; [apply layout_cont; auto using good_oktail, okcont_pr|now apply (H (hd x))].
  - eapply post_bind; [apply post_true|intros c _; apply (H c)].
Qed.
Lemma cdw_pair {A B} RA IA (rdA : Z -> Z -> Z -> M A) prA ncA RB IB (rdB : Z -> Z -> Z -> M B) prB ncB :
  cdw RA IA rdA prA ncA -> cdw RB IB rdB prB ncB ->
  cdw (fun c => RA (fst c) /\ RB (snd c)) (fun c => IA (fst c) /\ IB (snd c))
    (fun mat mf mt => a <- rdA mat mf mt ;; b <- rdB mat mf mt ;; ret (a, b))
    (fun c mat mf mt => prA (fst c) mat mf mt ++ prB (snd c) mat mf mt) (fun c => ncA (fst c) + ncB (snd c)).
Proof.
  intros HA HB. split; intros mat mf mt.
  - intros [a b] G [R1 R2] [I1 I2]. cbn [fst snd] in *. eapply reads_bind; [apply HA; assumption|cbv beta]. apply reads_bind_ret with (f := pair a). now apply HB.
  - intros [a b] G [R1 R2] [I1 I2]. cbn [fst snd] in *. apply layout_app; [now apply HA|now apply HB].
  - eapply post_bind; [apply HA|intros a Ia]. eapply post_bind; [apply HB|intros b Ib]. apply post_ret. auto.
Qed.
Lemma cdw_inj {A C} (f : A -> C) (R' I' : C -> Prop) pr' nc' R I (rd : Z -> Z -> Z -> M A) pr nc :
  cdw R I rd pr nc ->
  (forall a mat mf mt, pr' (f a) mat mf mt = pr a mat mf mt) -> (forall a, nc' (f a) = nc a) ->
  (forall c, R' c -> I' c -> exists a, c = f a /\ R a /\ I a) -> (forall a, I a -> I' (f a)) ->
  cdw R' I' (fun mat mf mt => x <- rd mat mf mt ;; ret (f x)) pr' nc'.
Proof.
  intros H Hp Hn Hr Hi. split; intros mat mf mt.
  - intros c G R1 I1. destruct (Hr c R1 I1) as (a & -> & Ra & Ia). rewrite Hp, Hn. apply reads_bind_ret. now apply H.
  - intros c G R1 I1. destruct (Hr c R1 I1) as (a & -> & Ra & Ia). rewrite Hp, Hn. now apply H.
  - eapply post_bind; [apply H|intros a Ia]. apply post_ret. auto.
Qed.
Lemma cdw_throw {A} e (R I : A -> Prop) pr nc : (forall x, R x -> I x -> False) -> cdw R I (fun _ _ _ => throw e) pr nc.
Proof. intros H. apply cod_cdw, cod_throw, H. Qed.
Lemma cdw_all {A} rep inv (rd : Z -> Z -> Z -> M A) pr nc n : cdw rep inv rd pr nc ->
  cdw (Forall rep) (fun l => Forall inv l /\ len l = i32 n) (rd_all rd n) (pr_all pr) (nc_all nc).
Proof.
  intros [H1 H2 H4]. split.
  - intros mat mf mt l G R [I L]. unfold rd_all, rd_sequence. rewrite <- L. eapply reads_require_bind; [unfold len; lia|]. unfold len. rewrite Nat2Z.id.
    apply reads_rd_n. rewrite Forall_forall in *. intros x Hx. apply H1; auto.
  - intros mat mf mt l G R [I L]. apply (layout_flat_map (fun c => pr c mat mf mt)). rewrite Forall_forall in *. intros x Hx. apply H2; auto.
  - intros. unfold rd_all, rd_sequence. eapply post_bind; [apply post_require|cbv beta; intros _ E].
    eapply post_weaken; [apply post_rd_n, H4|]. cbv beta. intros l [F L]. split; [exact F|]. unfold len. lia.
Qed.
Lemma cdw_peek {A} (hd : A -> cont) (R I : A -> Prop) (rd : cont -> Z -> Z -> Z -> M A) pr nc :
  (forall x, R x -> I x -> okcont (hd x) /\ forall mat mf mt, exists t, pr x mat mf mt = pr_cont (hd x) mat mf mt ++ t) ->
  (forall c, cdw (fun x => R x /\ c = hd x) I (rd c) pr nc) ->
  cdw R I (fun mat mf mt => c <- peek_cont mat mf mt ;; rd c mat mf mt) pr nc.
Proof.
  intros He H. split; intros mat mf mt.
  - intros x G Rx Ix rest ln. destruct (He x Rx Ix) as [Hc Ht]. destruct (Ht mat mf mt) as [t Et].
    unfold bind. assert (P : peek_cont mat mf mt (mkst (pr x mat mf mt ++ rest) ln) = Ok (hd x) (mkst (pr x mat mf mt ++ rest) ln)).
    { apply peek_ok. split; [reflexivity|]. eexists. rewrite Et, <- app_assoc. apply reads_cont; [exact Hc|now apply good_oktail]. }
    rewrite P. apply (H (hd x)); auto.
  - intros x G Rx Ix. apply (H (hd x)); auto.
  - eapply post_bind; [apply post_true|]. intros c _. apply (H c).
Qed.

(** ** the correlation matrix *)
Definition code (nd : nat) (f : Z) (x : real) (k : Z) : Prop := k <> 0 /\ in_cols (nd + 1) k /\ half_away k f = x /\ convert f x = Val k.
Lemma ten_pow nd : 0 <= nd <= 6 -> 0 < 10 ^ nd <= 1000000.
Proof. intros H. split; [apply Z.pow_pos_nonneg; lia|]. change 1000000 with (10 ^ 6). apply Z.pow_le_mono_r; lia. Qed.
Lemma coded_code nd x : 2 <= nd <= 6 -> coded nd x -> exists k, code (Z.to_nat nd) (10 ^ nd) x k.
Proof.
  intros B (k & N & C & E). assert (P := ten_pow nd ltac:(lia)). exists k.
  assert (K : 0 < Z.abs k < 10000000).
  { destruct C as [C1 C2]. rewrite Nat2Z.inj_add, Z2Nat.id in C1, C2 by lia. change (Z.of_nat 1) with 1 in *. replace (nd + 1 - 1) with nd in C1 by lia.
    assert (10 ^ (nd + 1) <= 10 ^ 7) by (apply Z.pow_le_mono_r; lia). assert (10 ^ nd <= 10 ^ 7) by (apply Z.pow_le_mono_r; lia). change (10 ^ 7) with 10000000 in *. lia. }
  assert (F : half_away k (10 ^ nd) = x) by (unfold half_away; rewrite E; reflexivity).
  split; [exact N|]. split; [exact C|]. split; [exact F|]. rewrite <- F. apply convert_half; lia.
Qed.
Lemma codes nd vs : 2 <= nd <= 6 -> Forall (coded nd) vs -> exists ks, Forall2 (code (Z.to_nat nd) (10 ^ nd)) vs ks.
Proof.
  intros B. induction 1 as [|x vs H _ (ks & IH)]; [exists []; constructor|].
  destruct (coded_code nd x B H) as [k K]. exists (k :: ks). now constructor.
Qed.
Lemma codes_val nd f vs ks : Forall2 (code nd f) vs ks -> all_val (map (convert f) vs) = Val ks.
Proof. induction 1 as [|x k vs ks (_ & _ & _ & E) _ IH]; [reflexivity|]. cbn [map all_val]. rewrite E, IH. reflexivity. Qed.
Lemma codes_kept nd f vs ks : Forall2 (code nd f) vs ks -> forall ij, flat_map (kept f) (combine ij ks) = combine ij vs.
Proof.
  induction 1 as [|x k vs ks (N & _ & E & _) _ IH]; intros [|[i j] ij]; try reflexivity.
  cbn [combine flat_map kept]. replace (k =? 0) with false by lia. rewrite E, IH. reflexivity.
Qed.
Lemma codes_cols nd f vs ks : Forall2 (code nd f) vs ks -> forall ij : list (Z * Z), Forall (fun e => in_cols (nd + 1) (snd e)) (combine ij ks).
Proof. induction 1 as [|x k vs ks (_ & C & _) _ IH]; intros [|p ij]; cbn [combine]; constructor; [exact C|apply IH]. Qed.
Lemma index_all is : Forall index5 is -> forall js (ks : list Z), Forall index5 js -> Forall index_ok (combine (combine is js) ks).
Proof.
  induction 1 as [|i is H _ IH]; intros js ks J; [constructor|]. destruct J as [|j js Hj J]; [constructor|]. cbn [combine].
  destruct ks as [|k ks]; cbn [combine]; constructor; [|apply IH, J]. unfold index_ok, index5 in *. change (10 ^ 5) with 100000 in *. lia.
Qed.
Lemma rows_ascend_from is : forall js i j (ks : list Z), length js = length is -> rows_ascend (i :: is) (j :: js) -> ascending_from i j (combine (combine is js) ks).
Proof.
  induction is as [|i' is IH]; intros js i j ks L A; [exact Logic.I|]. destruct js as [|j' js]; [discriminate L|]. cbn [combine]. destruct ks as [|k ks]; [exact Logic.I|].
  cbn [combine ascending_from]. split.
  - intros E. exact (A 0%nat ltac:(cbn; lia) E).
  - apply IH; [now injection L|]. intros n Hn E. apply (A (Datatypes.S n)); [cbn in *; lia|exact E].
Qed.
Lemma cap_bounds nd : (2 <= nd <= 6)%nat -> 1 <= Z.of_nat (intg_cap nd) <= 1000.
Proof. intros H. assert (K : (nd = 2 \/ nd = 3 \/ nd = 4 \/ nd = 5 \/ nd = 6)%nat) by lia. destruct K as [->|[->|[->|[->| ->]]]]; cbn; lia. Qed.
Lemma in_cols_0 w : (1 <= w)%nat -> in_cols w 0.
Proof. intros H. unfold in_cols. assert (0 < 10 ^ (Z.of_nat w - 1)) by (apply Z.pow_pos_nonneg; lia). assert (0 < 10 ^ Z.of_nat w) by (apply Z.pow_pos_nonneg; lia). lia. Qed.
Lemma corr_lines x : inv_corr x -> rep_corr x -> let nd := Z.to_nat (cm_ndigit x) in
  exists L, compact_lines x = Val L /\ Forall (line_ok (Z.of_nat (intg_cap nd)) (in_cols (nd + 1))) L
    /\ flat_map (elements_of (10 ^ cm_ndigit x)) L = combine (combine (cm_i x) (cm_j x)) (cm_values x) /\ (length L <= length (cm_values x))%nat.
Proof.
  intros (I1 & I2 & I3 & I4) (_ & _ & R1 & R2 & R3 & R4) nd. destruct (codes _ _ I1 R4) as [ks K]. fold nd in K.
  assert (Ef : 10 ^ Z.of_nat (Z.to_nat (u32 (cm_ndigit x))) = 10 ^ cm_ndigit x) by (rewrite u32_id by lia; f_equal; lia).
  assert (Nd : (2 <= nd <= 6)%nat) by (unfold nd; lia).
  unfold compact_lines. rewrite Ef, (codes_val _ _ _ _ K). cbn [obind]. rewrite u32_id by lia. fold nd.
  assert (Kl := codes_kept _ _ _ _ K (combine (cm_i x) (cm_j x))). assert (Kc := codes_cols _ _ _ _ K (combine (cm_i x) (cm_j x))).
  assert (Ix := index_all _ R1 _ ks R2). assert (Ln := Forall2_len _ _ _ K).
  destruct (combine (combine (cm_i x) (cm_j x)) ks) as [|[[i j] k] es] eqn:Ec.
  - exists []. split; [reflexivity|]. split; [constructor|]. split; [exact Kl|cbn; lia].
  - assert (As : ascending_from i j es).
    { destruct (cm_i x) as [|i0 is]; [discriminate Ec|]. destruct (cm_j x) as [|j0 js]; [discriminate Ec|]. destruct ks as [|k0 ks0]; [discriminate Ec|]. cbn [combine] in Ec.
      injection Ec as <- <- <- <-. apply rows_ascend_from; [cbn in *; lia|exact R3]. }
    inversion Ix as [|? ? X1 X2]; subst. inversion Kc as [|? ? C1 C2]; subst. cbn [snd] in C1. unfold index_ok in X1. 
    destruct (fill_spec (10 ^ cm_ndigit x) (Z.of_nat (intg_cap nd)) (in_cols (nd + 1)) (cap_bounds nd Nd) (in_cols_0 (nd + 1) ltac:(lia)) es (mkintg i j [k])) as (F1 & F2 & F3).
    + assert (Cb := cap_bounds nd Nd). split; cbn [gi gj gk]; [apply X1|apply X1|cbn [length]; lia|constructor; [exact C1|constructor]].
    + exact X2.
    + exact C2.
    + cbn [gi gj gk length]. replace (j + Z.of_nat 1 - 1) with j by lia. exact As.
    + exists (fill (Z.of_nat (intg_cap nd)) (mkintg i j [k]) es). split; [reflexivity|]. split; [exact F2|]. split.
      * rewrite F1, <- Kl. cbn [flat_map]. f_equal. unfold elements_of, kept. cbn [gi gj gk length seq combine flat_map snd fst]. rewrite Z.add_0_r, u32_id by lia. apply app_nil_r.
      * assert (Le : (length (combine (combine (cm_i x) (cm_j x)) ks) <= length ks)%nat) by (rewrite combine_length; lia). rewrite Ec in Le. cbn [length] in Le. lia.
Qed.

Lemma reads_rd_n_to {A C} (rdc : M C) (prc : A -> text) (h : A -> C) l :
  Forall (fun a => reads rdc (prc a) (h a) 1) l -> reads (rd_n rdc (length l)) (flat_map prc l) (map h l) (Z.of_nat (length l)).
Proof.
  induction 1 as [|x l Hx Hl IH]; [apply reads_ret|]. cbn [length rd_n flat_map map].
  eapply reads_eq; [|reflexivity|reflexivity|].
  - eapply reads_bind; [exact Hx|]. apply reads_bind_ret with (f := cons (h x)). exact IH.
  - cbn [length]. lia.
Qed.
Lemma layout_lines {A} mat mf mt (prc : A -> text) l : Forall (fun a => layout mat mf mt 1 (prc a)) l -> layout mat mf mt (Z.of_nat (length l)) (flat_map prc l).
Proof.
  induction 1 as [|x l Hx Hl IH]; [apply layout_nil|]. cbn [flat_map]. replace (Z.of_nat (length (x :: l))) with (1 + Z.of_nat (length l)) by (cbn [length]; lia).
  now apply layout_app.
Qed.
Lemma line_okintg nd cap g : (2 <= nd)%nat -> line_ok (Z.of_nat cap) (in_cols (nd + 1)) g -> okintg nd cap g.
Proof.
  intros Hn [H1 H2 H3 H4]. unfold okintg. change (10 ^ 5) with 100000 in *. split; [lia|]. split; [lia|].
  assert (F : forall z, 0 <= z < 100000 -> fits 5 z = true).
  { intros z Hz. apply in_cols_fits; [lia|]. unfold in_cols. change (10 ^ (Z.of_nat 5 - 1)) with 10000. change (10 ^ Z.of_nat 5) with 100000. lia. }
  split; [now apply F|]. split; [now apply F|]. split; [lia|]. revert H4. apply Forall_impl. intros z Hz. apply in_cols_fits; [lia|exact Hz].
Qed.
Lemma maps_combine {A B C} (i : list A) : forall (j : list B) (v : list C), length i = length v -> length j = length v ->
  map (fun e => fst (fst e)) (combine (combine i j) v) = i /\ map (fun e => snd (fst e)) (combine (combine i j) v) = j /\ map snd (combine (combine i j) v) = v.
Proof.
  induction i as [|a i IH]; intros [|b j] [|c v] L1 L2; try discriminate; [auto|]. cbn [combine map fst snd].
  destruct (IH j v) as (-> & -> & ->); [now injection L1|now injection L2|auto].
Qed.
Lemma make_corr_val order i j c nd x : make_corr order i j c nd = Val x <->
  2 <= nd <= 6 /\ u32 (len i) = u32 (len j) /\ u32 (len i) = u32 (len c) /\ x = mkcorr (i32 nd) (i32 order) i j c.
Proof.
  unfold make_corr. fold (len i) (len j) (len c). split.
  - intros E. apply obind_val in E. destruct E as ([] & E1 & E). apply obind_val in E. destruct E as ([] & E2 & E). apply ensure_val in E1, E2. unfold digits_ok in E2.
    assert (x = mkcorr (i32 nd) (i32 order) i j c) by congruence. split; [lia|]. split; [lia|]. split; [lia|assumption].
  - intros (B & E1 & E2 & ->). apply obind_val. exists tt. split; [apply ensure_val; lia|]. apply obind_val. exists tt. split; [apply ensure_val; unfold digits_ok; lia|reflexivity].
Qed.
Lemma corr_head_ok x : inv_corr x -> rep_corr x -> okcont (corr_head x).
Proof.
  intros I R. destruct (corr_lines x I R) as (L & E & _ & _ & Len). destruct I as (I1 & I2 & _), R as (_ & R & _). unfold corr_head, the_lines. rewrite E.
  unfold okcont. cbn [c1 c2 l1 l2 n1 n2]. assert (B := u32_range (cm_nnn x)). assert (B' := u32_range (cm_ndigit x)). unfold len in R.
  change (2 ^ 32) with 4294967296 in *. change (2 ^ 31) with 2147483648 in *.
  split; [apply okr_rzero|]. split; [apply okr_rzero|]. assert (H : forall z, 0 <= z < 4294967296 -> fits 11 z = true).
  { intros z Hz. apply in_cols_fits; [lia|]. unfold in_cols. change (10 ^ Z.of_nat 11) with 100000000000. change (10 ^ (Z.of_nat 11 - 1)) with 10000000000. lia. }
  split; [|split; [|split]]; apply H; lia.
Qed.
Lemma print_digits_ok x L : inv_corr x -> rep_corr x -> compact_lines x = Val L -> L = [] \/ print_digits (Z.to_nat (cm_ndigit x)) = Z.to_nat (cm_ndigit x).
Proof.
  intros I ([R|R] & _) E; [left|right].
  - unfold compact_lines in E. rewrite R in E. cbn [map all_val obind] in E. destruct (combine (cm_i x) (cm_j x)); cbn [combine] in E; congruence.
  - unfold print_digits. destruct (Nat.eqb_spec (Z.to_nat (cm_ndigit x)) 3); [|reflexivity]. destruct I as (I & _). lia.
Qed.
Lemma cdw_corr : cdw rep_corr inv_corr rd_corr pr_corr nc_corr.
Proof.
  split; intros mat mf mt.
  - intros x G R I. assert (H := corr_head_ok x I R). destruct (corr_lines x I R) as (L & E & F & K & Len). assert (Pd := print_digits_ok x L I R E).
    assert (Hl : the_lines x = L) by (unfold the_lines; rewrite E; reflexivity). destruct I as (I1 & I2 & I3 & I4). assert (Lb : Z.of_nat (length L) < 2 ^ 31) by (destruct R as (_ & R & _); unfold len in R; lia).
    assert (Und : u32 (cm_ndigit x) = cm_ndigit x) by (apply u32_id; lia). set (nd := Z.to_nat (cm_ndigit x)) in *. assert (Nd : (2 <= nd <= 6)%nat) by (unfold nd; lia).
    unfold rd_corr, pr_corr, nc_corr. rewrite Hl. eapply reads_bind; [apply reads_cont; [exact H|now apply good_oktail]|cbv beta].
    unfold corr_head. cbn [l1 l2 n1]. rewrite Hl, !Und, (u32_id (Z.of_nat (length L))), Nat2Z.id by lia. fold nd. eapply reads_require_bind; [unfold digits_ok; lia|].
    eapply reads_k; [eapply reads_bind_r; [apply (reads_rd_n_to _ _ (fun g => mkintg (gi g) (gj g) (strip0 (gk g))))|]|].
    + destruct Pd as [-> | Pd]; [constructor|]. rewrite Pd. revert F. apply Forall_impl. intros g Hg. apply reads_intg; [apply line_okintg; [lia|exact Hg]|now apply good_oktail].
    + assert (Ee : flat_map (elements_of (10 ^ Z.of_nat nd)) (map (fun g => mkintg (gi g) (gj g) (strip0 (gk g))) L) = combine (combine (cm_i x) (cm_j x)) (cm_values x)).
      { rewrite <- K. replace (Z.of_nat nd) with (cm_ndigit x) by (unfold nd; lia). clear. induction L as [|g L IH]; [reflexivity|]. cbn [map flat_map]. rewrite IH, elements_strip. reflexivity. }
      rewrite Ee. destruct (maps_combine _ _ _ I3 I4) as (-> & -> & ->).
      assert (Mk : make_corr (u32 (u32 (cm_nnn x))) (cm_i x) (cm_j x) (cm_values x) (cm_ndigit x) = Val x).
      { apply make_corr_val. split; [lia|]. unfold len. rewrite I3, I4. split; [reflexivity|]. split; [reflexivity|].
        rewrite (i32_id (cm_ndigit x)) by (unfold int32; lia). rewrite (u32_id (u32 (cm_nnn x))) by (assert (B := u32_range (cm_nnn x)); lia). rewrite i32_u32, i32_id by exact I2. now destruct x. }
      rewrite Mk. apply reads_ret.
    + lia.
  - intros x G R I. assert (H := corr_head_ok x I R). destruct (corr_lines x I R) as (L & E & F & K & Len). assert (Pd := print_digits_ok x L I R E).
    assert (Hl : the_lines x = L) by (unfold the_lines; rewrite E; reflexivity). destruct I as (I1 & I2 & I3 & I4).
    assert (Und : u32 (cm_ndigit x) = cm_ndigit x) by (apply u32_id; lia). set (nd := Z.to_nat (cm_ndigit x)) in *. assert (Nd : (2 <= nd <= 6)%nat) by (unfold nd; lia).
    unfold pr_corr, nc_corr. rewrite Hl, Und. fold nd. apply layout_app; [apply layout_cont; auto using good_oktail, okcont_pr|]. apply layout_lines.
    destruct Pd as [-> | Pd]; [constructor|]. rewrite Pd. revert F. apply Forall_impl. intros g Hg. apply line_okintg in Hg; [|lia]. destruct Hg as (_ & _ & G1 & G2 & G3 & G4).
    apply layout_intg; auto using good_oktail.
  - unfold rd_corr. eapply post_bind; [apply post_true|intros c _]. eapply post_bind; [apply post_require|cbv beta; intros _ D]. eapply post_bind; [apply post_true|intros gs _].
    eapply post_weaken; [apply post_lift|]. cbv beta. intros x E. apply make_corr_val in E. destruct E as (B & E1 & E2 & ->). unfold inv_corr. cbn [cm_ndigit cm_nnn cm_i cm_j cm_values].
    rewrite (i32_id (u32 (l1 c))) by (unfold int32; lia). split; [exact B|]. split; [apply i32_range|]. rewrite !map_length. auto.
Qed.

(** ** compact covariances *)
Lemma compact_head_ok {D U} (repD : D -> Prop) (repU : U -> Prop) x : rep_compact repD repU x -> okcont (compact_head x).
Proof.
  intros (R1 & R2 & R3 & R4 & _). unfold okcont, compact_head. cbn [c1 c2 l1 l2 n1 n2]. split; [now apply endf_okr|]. split; [now apply endf_okr|].
  split; [|split; [|split]]; (apply in_cols_fits; [lia|]); try assumption; apply cols32; [unfold int32; lia|apply int32_isr].
Qed.
Lemma cdw_compact {D U} (repD invD : D -> Prop) rdD prD ncD (repU invU : U -> Prop) rdU prU ncU :
  cod repD invD rdD prD ncD -> (forall d, invD d) -> cod repU invU rdU prU ncU ->
  cdw (rep_compact repD repU) (inv_compact invU) (rd_compact rdD rdU) (pr_compact prD prU) (nc_compact ncD ncU).
Proof.
  intros HD HI HU. refine (cdw_nc _ _ _ _ _ _ (cdw_headed compact_head (rep_compact repD repU) (inv_compact invU) (fun c mat mf mt =>
      d <- rd_when rdD (z2b (n2 c)) mat mf mt ;; u <- rdU mat mf mt ;; m <- rd_corr mat mf mt ;; ret (mkcompact (c1 c) (c2 c) (l1 c) (n1 c) d u m))
    (fun x mat mf mt => pr_opt prD (co_dap x) mat mf mt ++ prU (co_unc x) mat mf mt ++ pr_corr (co_corr x) mat mf mt)
    (fun x => nc_opt ncD (co_dap x) + (ncU (co_unc x) + nc_corr (co_corr x))) _ _) _).
  - intros x R _. exact (compact_head_ok _ _ _ R).
  - intros c. refine (cdw_ext _ _ _ _ _ _ (cdw_map (fun p => Val (mkcompact (c1 c) (c2 c) (l1 c) (n1 c) (fst p) (fst (snd p)) (snd (snd p)))) (fun x => (co_dap x, (co_unc x, co_corr x))) _ _ _ _ _ _ _
      (cdw_pair _ _ _ _ _ _ _ _ _ _ (cod_cdw _ _ _ _ _ (cod_when _ _ _ _ _ (z2b (n2 c)) HD)) (cdw_pair _ _ _ _ _ _ _ _ _ _ (cod_cdw _ _ _ _ _ HU) cdw_corr)) _ _) _).
    + intros x [(R1 & R2 & R3 & R4 & R5 & R6 & R7) ->] (I1 & I2). cbn [fst snd compact_head c1 c2 l1 n1 n2]. rewrite isr_present. split; [auto|]. split; [split; [intros; apply HI|auto]|]. now destruct x.
    + intros [d [u m]] x (_ & Iu & Im) E. cbn [fst snd] in *. assert (x = mkcompact (c1 c) (c2 c) (l1 c) (n1 c) d u m) by congruence. subst x. split; assumption.
    + intros mat mf mt s. unfold bind. destruct (rd_when _ _ _ _ _ _) as [d s1| |]; [|reflexivity..]. destruct (rdU _ _ _ _) as [u s2| |]; [|reflexivity..]. destruct (rd_corr _ _ _ _); reflexivity.
  - intros x. unfold nc_compact. lia.
Qed.

(** ** the variant *)
Definition c_head (p : cparams) : cont :=
  match p with
  | LimitedSLBW x | LimitedMLBW x => limited_head x
  | GeneralSLBW x | GeneralMLBW x => general_head x
  | GeneralRM x => general_head x | GeneralRML x => general_head x
  | CompactSLBW x | CompactMLBW x => compact_head x
  | CompactRM x => compact_head x | CompactRML x => compact_head x
  | Unresolved32 x => unres32_head x
  end.
Definition c_LCOMP (p : cparams) : Z :=
  match p with
  | LimitedSLBW _ | LimitedMLBW _ | Unresolved32 _ => 0
  | GeneralSLBW _ | GeneralMLBW _ | GeneralRM _ | GeneralRML _ => 1
  | _ => 2
  end.
Lemma c_head_LCOMP p : i32 (l2 (c_head p)) = c_LCOMP p.
Proof. destruct p; reflexivity. Qed.
Lemma general_head_ok {D S} repD repS invS (x : general D S) : rep_general repD repS x -> inv_general invS x -> okcont (general_head x).
Proof.
  intros (_ & R1 & R2 & _) (I1 & _). unfold okcont, general_head. cbn [c1 c2 l1 l2 n1 n2]. split; [now apply endf_okr|]. split; [now apply endf_okr|].
  split; [|split; [|split]]; (apply in_cols_fits; [lia|]); try (apply cols32; unfold int32; lia); [|apply cols32, int32_isr].
  unfold in_cols. change (10 ^ Z.of_nat 11) with 100000000000. change (10 ^ (Z.of_nat 11 - 1)) with 10000000000. change (2 ^ 32) with 4294967296 in I1. lia.
Qed.
Lemma c_head_ok p : rep_cparams p -> inv_cparams p -> okcont (c_head p).
Proof.
  destruct p; cbn [rep_cparams inv_cparams c_head]; intros R J;
    try (exact (compact_head_ok _ _ _ R)); try (exact (general_head_ok _ _ _ _ R J)).
  - destruct R as (R1 & R2 & _). apply ok_small_cont; auto using endf_okr, int32_0, int32_isize, int32_isr.
  - destruct R as (R1 & R2 & _). apply ok_small_cont; auto using endf_okr, int32_0, int32_isize, int32_isr.
  - destruct R as (R1 & R2 & _). apply ok_small_cont; auto using endf_okr, int32_0, int32_isize.
Qed.
Lemma c_head_printed p mat mf mt : exists t, pr_cparams p mat mf mt = pr_cont (c_head p) mat mf mt ++ t.
Proof. destruct p; cbn [pr_cparams c_head]; eexists; reflexivity. Qed.
Lemma any_all {A} (d : A) : any d. Proof. exact I. Qed.
Ltac leaf C H := eapply (cdw_inj C); [exact H|reflexivity|reflexivity| |intros ? ?; assumption];
  let p := fresh "p" in let J := fresh "J" in intros p [(? & ? & ?) ->] J; rewrite ?c_head_LCOMP in *; destruct p; cbn [c_LRU c_LRF c_LCOMP rep_cparams inv_cparams] in *; try lia; eexists; split; [reflexivity|]; split; assumption.
Ltac noleaf := apply cdw_throw; let p := fresh "p" in intros p [(? & ? & ?) ->] _; rewrite ?c_head_LCOMP in *; destruct p; cbn [c_LRU c_LRF c_LCOMP] in *; lia.
Lemma cdw_cparams lru lrf : cdw (fun p => rep_cparams p /\ c_LRU p = lru /\ c_LRF p = lrf) inv_cparams (rd_cparams lru lrf) pr_cparams nc_cparams.
Proof.
  unfold rd_cparams. refine (cdw_peek c_head _ _ (fun c mat mf mt => rd_cparams_of lru lrf (i32 (l2 c)) mat mf mt) _ _ _ _).
  - intros p (R & _) J. split; [now apply c_head_ok|apply c_head_printed].
  - intros c. unfold rd_cparams_of.
    destruct (Z.eqb_spec lru 1) as [E1|E1].
    + destruct (Z.eqb_spec (i32 (l2 c)) 0) as [E2|E2]; [|destruct (Z.eqb_spec (i32 (l2 c)) 1) as [E3|E3]; [|destruct (Z.eqb_spec (i32 (l2 c)) 2) as [E4|E4]]].
      * destruct (Z.eqb_spec lrf 1); [leaf LimitedSLBW (cod_cdw _ _ _ _ _ cod_limited)|]. destruct (Z.eqb_spec lrf 2); [leaf LimitedMLBW (cod_cdw _ _ _ _ _ cod_limited)|noleaf].
      * destruct (Z.eqb_spec lrf 1); [leaf GeneralSLBW (cod_cdw _ _ _ _ _ (cod_general _ _ _ _ _ _ _ _ _ _ cod_dap any_all (cod_checked _ _ check_short_spec)))|].
        destruct (Z.eqb_spec lrf 2); [leaf GeneralMLBW (cod_cdw _ _ _ _ _ (cod_general _ _ _ _ _ _ _ _ _ _ cod_dap any_all (cod_checked _ _ check_short_spec)))|].
        destruct (Z.eqb_spec lrf 3); [leaf GeneralRM (cod_cdw _ _ _ _ _ (cod_general _ _ _ _ _ _ _ _ _ _ cod_list any_all (cod_checked _ _ check_short_spec)))|].
        destruct (Z.eqb_spec lrf 7); [leaf GeneralRML (cod_cdw _ _ _ _ _ (cod_general _ _ _ _ _ _ _ _ _ _ cod_nothing any_all cod_short_rml))|noleaf].
      * destruct (Z.eqb_spec lrf 1); [leaf CompactSLBW (cdw_compact _ _ _ _ _ _ _ _ _ _ cod_dap any_all (cod_checked _ _ check_uncertainties_spec))|].
        destruct (Z.eqb_spec lrf 2); [leaf CompactMLBW (cdw_compact _ _ _ _ _ _ _ _ _ _ cod_dap any_all (cod_checked _ _ check_uncertainties_spec))|].
        destruct (Z.eqb_spec lrf 3); [leaf CompactRM (cdw_compact _ _ _ _ _ _ _ _ _ _ cod_list any_all (cod_checked _ _ check_uncertainties_spec))|].
        destruct (Z.eqb_spec lrf 7); [leaf CompactRML (cdw_compact _ _ _ _ _ _ _ _ _ _ cod_nothing any_all cod_rml32)|noleaf].
      * noleaf.
    + destruct (Z.eqb_spec lru 2); [|noleaf]. leaf Unresolved32 (cod_cdw _ _ _ _ _ cod_unres32).
Qed.

(** ** ranges and isotopes *)
Lemma cod_cradius nro : cod (fun o => (forall l, o = Some l -> Forall rep_explicit l) /\ isr o = nro) (fun o => forall l, o = Some l -> many_of inv_explicit l)
  (rd_cradius nro) (pr_opt pr_radcov) (nc_opt nc_radcov).
Proof.
  unfold rd_cradius. destruct (Z.eqb_spec nro 0); [|destruct (Z.eqb_spec nro 1)].
  - apply cod_ret; [|discriminate|reflexivity|reflexivity]. intros [l|] [_ E] _; [cbn in E; lia|reflexivity].
  - eapply (cod_inj Some); [exact cod_radcov|reflexivity|reflexivity| |].
    + intros [l|] [R E] J; [|cbn in E; lia]. exists l. auto.
    + intros l J l' E. assert (l' = l) by congruence. now subst.
  - apply cod_throw. intros [l|] [_ E] _; cbn in E; lia.
Qed.
Lemma c_LRU_int p : int32 (c_LRU p). Proof. destruct p; unfold int32; cbn; lia. Qed.
Lemma c_LRF_int p : int32 (c_LRF p). Proof. destruct p; unfold int32; cbn; lia. Qed.
Lemma crange_naps x : inv_crange x -> int32 (cr_naps x).
Proof. intros [_ K]. unfold int32. destruct (cr_radius x); lia. Qed.
Lemma make_crange_val el eh naps p o x : make_crange el eh naps p o = Val x <-> crange_ok naps p o = true /\ x = mkcrange el eh naps p o.
Proof. unfold make_crange. destruct (crange_ok naps p o); split; [intros E; split; [reflexivity|congruence]|intros [_ ->]; reflexivity|discriminate|intros [E _]; discriminate E]. Qed.
Lemma crange_ok_spec naps p o el eh : inv_cparams p -> (forall l, o = Some l -> many_of inv_explicit l) ->
  crange_ok naps p o = true <-> inv_crange (mkcrange el eh naps p o).
Proof.
  intros Hp Ho. unfold crange_ok, inv_crange. cbn [cr_params cr_radius cr_naps]. destruct o as [l|].
  - assert (K := Ho l eq_refl). split.
    + intros E. split; [exact Hp|]. split; [exact K|]. split; [lia|]. destruct p; try exact Logic.I; cbn [c_LRU c_LRF] in E; lia.
    + intros (_ & _ & B & C). destruct p; try destruct C; cbn [c_LRU c_LRF]; lia.
  - split; [intros E; split; [exact Hp|lia]|intros [_ B]; lia].
Qed.
Lemma cdw_crange : cdw rep_crange inv_crange rd_crange pr_crange nc_crange.
Proof.
  refine (cdw_nc _ _ _ _ _ _ (cdw_headed crange_head rep_crange inv_crange (fun c mat mf mt =>
      o <- rd_cradius (i32 (n1 c)) mat mf mt ;; p <- rd_cparams (i32 (l1 c)) (i32 (l2 c)) mat mf mt ;; lift (make_crange (c1 c) (c2 c) (i32 (n2 c)) p o))
    (fun x mat mf mt => pr_opt pr_radcov (cr_radius x) mat mf mt ++ pr_cparams (cr_params x) mat mf mt) (fun x => nc_opt nc_radcov (cr_radius x) + nc_cparams (cr_params x)) _ _) _).
  - intros x (R1 & R2 & _) Ix. apply ok_small_cont; auto using endf_okr, c_LRU_int, c_LRF_int, int32_isr, crange_naps.
  - intros c. refine (cdw_ext _ _ _ _ _ _ (cdw_map (fun p => make_crange (c1 c) (c2 c) (i32 (n2 c)) (snd p) (fst p)) (fun x => (cr_radius x, cr_params x)) _ _ _ _ _ _ _
      (cdw_pair _ _ _ _ _ _ _ _ _ _ (cod_cdw _ _ _ _ _ (cod_cradius (i32 (n1 c)))) (cdw_cparams (i32 (l1 c)) (i32 (l2 c)))) _ _) _).
    + intros x [(R1 & R2 & R3 & R4) ->] Ix. cbn [fst snd crange_head c1 c2 l1 l2 n1 n2].
      rewrite (i32_id (c_LRU _)), (i32_id (c_LRF _)), (i32_id (isr _)), (i32_id (cr_naps _)) by auto using c_LRU_int, c_LRF_int, int32_isr, crange_naps.
      assert (It : forall l, cr_radius x = Some l -> many_of inv_explicit l). { intros l E. destruct Ix as [_ K]. rewrite E in K. apply K. }
      split; [auto|]. split; [split; [exact It|apply Ix]|]. apply make_crange_val. split; [|now destruct x].
      apply (crange_ok_spec _ _ _ (cr_el x) (cr_eh x) (proj1 Ix) It). destruct x. exact Ix.
    + intros [o p] x [It Ip] E. cbn [fst snd] in *. apply make_crange_val in E. destruct E as [E ->]. now apply crange_ok_spec.
    + intros mat mf mt s. unfold bind. destruct (rd_cradius _ _ _ _ _) as [o s1| |]; [|reflexivity..]. destruct (rd_cparams _ _ _ _ _ _); reflexivity.
  - intros x. unfold nc_crange. lia.
Qed.
Lemma cdw_cisotope : cdw rep_cisotope inv_cisotope rd_cisotope pr_cisotope nc_cisotope.
Proof.
  refine (cdw_headed cisotope_head rep_cisotope inv_cisotope (fun c mat mf mt =>
      rs <- rd_all rd_crange (n1 c) mat mf mt ;; ret (mkcisotope (c1 c) (c2 c) (z2b (l2 c)) rs)) (fun x => pr_all pr_crange (ci_ranges x)) (fun x => nc_all nc_crange (ci_ranges x)) _ _).
  - intros x (R1 & R2 & _) Ix. apply ok_small_cont; auto using endf_okr, int32_0, int32_isize, int32_b2z.
  - intros c. eapply (cdw_inj (mkcisotope (c1 c) (c2 c) (z2b (l2 c)))); [exact (cdw_all _ _ _ _ _ (n1 c) cdw_crange)|reflexivity|reflexivity| |].
    + intros x [(R1 & R2 & R3) ->] [I1 I2]. exists (ci_ranges x). unfold cisotope_head. cbn [c1 c2 l2 n1]. rewrite z2b_b2z, i32_isize by assumption. split; [now destruct x|]. auto.
    + intros l [F L]. split; [exact F|]. cbn [ci_ranges]. rewrite L. apply i32_pos_bound.
Qed.
Lemma body_32 : body_cdw sec_32_151 (Forall rep_cisotope) (some_of inv_cisotope).
Proof.
  split; [cbn; lia|cbn; lia| | |].
  - intros l R I. cbn [sec_32_151 k_ints]. ints4. apply cols32, int32_isize.
  - intros h awr _. refine (cdw_map make_cisotopes (fun l => l) _ _ _ _ _ _ _ (cdw_all _ _ _ _ _ (n1 (sbase h)) cdw_cisotope) _ _).
    + intros l (R & _ & E) [I1 I2]. cbn in E. unfold head_ints in E. injection E as E1 E2 E3 E4. rewrite E3, i32_isize by lia. split; [exact R|]. split; [auto|]. apply one_bind; [lia|]. split; [lia|reflexivity].
    + intros l x [F L] E. assert (B := i32_pos_bound (n1 (sbase h))). apply one_bind in E; [|lia]. destruct E as [P <-]. split; [exact F|lia].
  - intros h mat mf s x s' _. exact I.
Qed.
Lemma core_32 : section_core sec_32_151 (Forall rep_cisotope) (some_of inv_cisotope).
Proof. apply bodyw_section, body_32. Qed.
