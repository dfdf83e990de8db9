(** PropInner.v -- C58: the control records inside a section hold the flags, counts and energies of their part in the columns that the
    ENDF-6 format gives them, both in any text that is read and in any text that is printed. *)
From Coq Require Import ZifyBool ZifyNat.
From Verif Require Import Base Disco DiscoProofs Records RecordProofs RecordRT RecordSound Layout RealRound RealProofs Spec Normal LineFacts Sections SecSpec Codec SectionProofs
  SecKit CodecKit PropRecords PropRecords2 PropRecords3 ExKit Sec9 Sec4 Sec6 Sec33 Sec8 Sec7 Sec2 Sec32 Sec28 Sec451 Sec1 Sec33Proofs Sec9Proofs Sec6Proofs Sec2Proofs PropTree PropHeads.
Open Scope Z_scope.

(** the first line of a text is a control record with these six values and the numbers of the section *)
Definition begins (mat mf mt : Z) (t : text) (a b : real) (c d e f : Z) : Prop :=
  cont_in_columns (nth_line t 0) a b c d e f /\ carries mat mf mt (nth_line t 0).
(** whatever is read begins with a control record whose values are related to the part in the given way *)
Definition from_record {A} (rd : Z -> Z -> Z -> M A) (P : A -> real -> real -> Z -> Z -> Z -> Z -> Prop) : Prop :=
  forall mat mf mt s x s', rd mat mf mt s = Ok x s' -> exists a b c d e f, begins mat mf mt (buf s) a b c d e f /\ P x a b c d e f.
(** whatever is printed begins with a control record with exactly these values, when they fit in their columns *)
Definition to_record {A} (pr : A -> Z -> Z -> Z -> text) (x : A) (a b : real) (c d e f : Z) : Prop :=
  forall mat mf mt, 0 < mat < 10000 -> 0 < mf < 100 -> 0 < mt < 1000 ->
  endf_real a -> endf_real b -> in_cols 11 c -> in_cols 11 d -> in_cols 11 e -> in_cols 11 f -> begins mat mf mt (pr x mat mf mt) a b c d e f.
(** the integer read from a field, as an int, is the number of elements *)
Definition counts {A} (z : Z) (l : list A) : Prop := i32 z = len l.
(** the flag is set unless the integer is zero *)
Definition says (z : Z) (b : bool) : Prop := b = true <-> z <> 0.

Lemma rd_cont_next mat mf mt s c s' : rd_cont mat mf mt s = Ok c s' -> line s' = line s + 1 /\ buf s' = drop_lines 1 (buf s).
Proof.
  intros R. destruct (proj1 (C09_record_reads_consume_own_lines mat mf mt) _ _ _ R) as (n & B1 & B2 & B3).
  assert (L : line s' = line s + 1); [|split; [exact L|rewrite B1; f_equal; lia]].
  apply on_err_ok in R. apply bind_ok in R as (c0 & s1 & H1 & R). apply bind_ok in R as (u & s2 & H2 & R).
  destruct (inl_any s) as (l & b & _ & I0). destruct (rd_base_cols _ _ _ _ _ I0 H1) as (_ & I1 & L1).
  destruct (verify_cols _ _ _ _ _ _ _ _ I1 H2) as (_ & _ & L2). inversion R; subst. lia.
Qed.
Lemma rd_begins mat mf mt s c s' : rd_cont mat mf mt s = Ok c s' -> begins mat mf mt (buf s) (c1 c) (c2 c) (l1 c) (l2 c) (n1 c) (n2 c).
Proof.
  intros R. split; [exact (C42_cont_columns _ _ _ _ _ _ R)|].
  destruct (proj1 (C09_record_reads_consume_own_lines mat mf mt) _ _ _ R) as (n & B1 & B2 & B3). destruct (rd_cont_next _ _ _ _ _ _ R). apply (B3 0%nat). lia.
Qed.
Lemma from_cont {A} (f : cont -> Z -> Z -> Z -> M A) (P : A -> real -> real -> Z -> Z -> Z -> Z -> Prop) :
  (forall c mat mf mt s x s', f c mat mf mt s = Ok x s' -> P x (c1 c) (c2 c) (l1 c) (l2 c) (n1 c) (n2 c)) ->
  from_record (fun mat mf mt => c <- rd_cont mat mf mt ;; f c mat mf mt) P.
Proof.
  intros H mat mf mt s x s' E. apply bind_ok in E as (c & s1 & E1 & E2). do 6 eexists. split; [exact (rd_begins _ _ _ _ _ _ E1)|]. exact (H _ _ _ _ _ _ _ E2).
Qed.
Lemma pr_begins h rest mat mf mt : 0 < mat < 10000 -> 0 < mf < 100 -> 0 < mt < 1000 -> okr (c1 h) -> okr (c2 h) ->
  in_cols 11 (l1 h) -> in_cols 11 (l2 h) -> in_cols 11 (n1 h) -> in_cols 11 (n2 h) ->
  begins mat mf mt (pr_cont h mat mf mt ++ rest) (c1 h) (c2 h) (l1 h) (l2 h) (n1 h) (n2 h).
Proof.
  intros. assert (G : good_tail mat mf mt) by (split; [|split]; unfold in_cols; cbn; lia).
  assert (K : okcont h) by (unfold okcont; do 5 (split; [first [assumption|apply in_cols_fits; [lia|assumption]]|]); apply in_cols_fits; [lia|assumption]).
  exact (rd_begins _ _ _ _ _ _ (reads_cont h mat mf mt K (good_oktail _ _ _ G) rest 0)).
Qed.
Lemma to_cont {A} (pr : A -> Z -> Z -> Z -> text) x h (rest : Z -> Z -> Z -> text) : (forall mat mf mt, pr x mat mf mt = pr_cont h mat mf mt ++ rest mat mf mt) ->
  to_record pr x (c1 h) (c2 h) (l1 h) (l2 h) (n1 h) (n2 h).
Proof. intros E mat mf mt. intros. rewrite E. apply pr_begins; auto using endf_okr. Qed.
Lemma to_is {A} (pr : A -> Z -> Z -> Z -> text) x a b c d e f h (rest : Z -> Z -> Z -> text) :
  (forall mat mf mt, pr x mat mf mt = pr_cont h mat mf mt ++ rest mat mf mt) -> h = mkcont a b c d e f -> to_record pr x a b c d e f.
Proof. intros E ->. exact (to_cont pr x _ rest E). Qed.
Lemma rd_all_count {A} (rd : Z -> Z -> Z -> M A) n mat mf mt s l s' : rd_all rd n mat mf mt s = Ok l s' -> counts n l.
Proof.
  unfold rd_all, rd_sequence. intros E. apply bind_ok in E as (u & s1 & E1 & E2). unfold require in E1. destruct (negb (i32 n <? 0)) eqn:N; [|discriminate E1].
  unfold counts. enough (forall k s l s', rd_n (rd mat mf mt) k s = Ok l s' -> length l = k) as L by (apply L in E2; unfold len; lia).
  induction k as [|k IH]; intros t m t' E; cbn [rd_n] in E; [injection E as <- <-; reflexivity|].
  apply bind_ok in E as (y & t1 & F1 & E). apply bind_ok in E as (ys & t2 & F2 & E). injection E as <- <-. cbn. f_equal. exact (IH _ _ _ F2).
Qed.
Lemma lift_ok {A} (o : out A) s x s' : lift o s = Ok x s' -> o = Val x.
Proof. unfold lift. destruct o; [intros E; injection E as <- <-; reflexivity|discriminate..]. Qed.
Lemma says_z2b z : says z (z2b z). Proof. unfold says, z2b. lia. Qed.
(** takes a successful reader apart *)
Ltac take E :=
  repeat match type of E with
  | bind _ _ _ = Ok _ _ => let y := fresh "y" in let t := fresh "t" in let F := fresh "F" in apply bind_ok in E as (y & t & F & E)
  | ret _ _ = Ok _ _ => injection E as <- <-
  | lift _ _ = Ok _ _ => apply lift_ok in E
  | (let! _ := _ in _) = Val _ => apply obind_val in E as (? & ? & E)
  | Val _ = Val _ => injection E as <-
  | (if ?b then _ else _) = Val _ => destruct b eqn:?; [|discriminate E]
  | (if ?b then _ else _) _ = Ok _ _ => destruct b eqn:?; [|discriminate E]
  end.
Ltac cnt := match goal with H : rd_all _ ?n _ _ _ _ = Ok ?l _ |- counts ?n ?l => exact (rd_all_count _ _ _ _ _ _ _ _ H) end.
Ltac fin := cbn; repeat split; try reflexivity; try (apply says_z2b); try cnt; auto.

(** ** File 2 *)
(** reading: SPI AP LAD - NLS NLSC; SPI AP - - - -; SPI AP LSSF - NLS -; AWRI - L - NJS -; - - IFG KRM NJS KRL; - - LCH LBK - -;
    EL EH LRU LRF NRO NAPS; ZAI ABN - LFW NER - *)
Theorem C58_file2_read :
  (forall mk, mk = make_resolved \/ mk = make_reich_moore ->
    from_record (rd_resolved mk) (fun x a b c d e f => rs_spi x = a /\ rs_ap x = b /\ says c (rs_lad x) /\ counts e (rs_lvalues x) /\ rs_nlsc x = i32 f))
  /\ from_record rd_special (fun x a b c d e f => x = Special a b)
  /\ (forall A (rd : Z -> Z -> Z -> M A), from_record (rd_unresolved rd)
       (fun x a b c d e f => un_spi x = a /\ un_ap x = b /\ says c (un_lssf x) /\ counts e (un_lvalues x)))
  /\ (forall chk, from_record (rd_jgroup chk) (fun x a b c d e f => jg_awri x = a /\ jg_l x = i32 c /\ counts e (jg_j x)))
  /\ from_record rd_rml (fun x a b c d e f => says c (rm_ifg x) /\ rm_krm x = i32 d /\ counts e (rm_groups x) /\ says f (rm_krl x))
  /\ (forall nch, from_record (rd_entry nch) (fun x a b c d e f => en_lch x = i32 c /\ 1 <= en_lch x <= nch
       /\ i32 d = match en_kind x with NoBackground => 0 | TableBackground _ _ => 1 | SammyBackground _ _ _ _ _ _ _ => 2 | FrohnerBackground _ _ _ _ _ => 3 end))
  /\ (forall lfw, from_record (rd_range lfw) (fun x a b c d e f => rg_el x = a /\ rg_eh x = b
       /\ i32 c = match rg_params x with Special _ _ => 0 | SLBW _ | MLBW _ | ReichMoore _ | RMatrix _ => 1 | _ => 2 end
       /\ (i32 c = 0 \/ i32 d = match rg_params x with SLBW _ | CaseA _ | CaseB _ => 1 | MLBW _ | CaseC _ => 2 | ReichMoore _ => 3 | _ => 7 end)
       /\ i32 e = (match rg_radius x with None => 0 | Some _ => 1 end) /\ rg_naps x = i32 f))
  /\ from_record rd_resisotope (fun x a b c d e f => ri_zai x = round_int a /\ ri_abn x = b /\ says d (ri_lfw x) /\ counts e (ri_ranges x)).
Proof.
  split. { intros mk [-> | ->]; apply from_cont; intros c mat mf mt s x s' E; unfold make_reich_moore, make_resolved in E; take E; try (unfold make_resolved in *; take H); fin. }
  split. { apply from_cont; intros c mat mf mt s x s' E; take E; fin. }
  split. { intros A rd. apply from_cont; intros c mat mf mt s x s' E; unfold make_unresolved in E; take E; fin. }
  split. { intros chk. apply from_cont; intros c mat mf mt s x s' E; unfold make_jgroup in E; take E; fin. }
  split. { apply from_cont; intros c mat mf mt s x s' E; unfold make_rml in E; take E; fin. }
  split. { intros nch. apply from_cont; intros c mat mf mt s x s' E. take E. unfold require in F. destruct ((0 <? i32 (l1 c)) && (i32 (l1 c) <=? nch)) eqn:B; [|discriminate F].
    cbn [en_lch en_kind]. split; [reflexivity|]. split; [lia|]. unfold rd_background in F0.
    destruct (Z.eqb_spec (i32 (l2 c)) 0) as [Q|]; [take F0; exact Q|]. destruct (Z.eqb_spec (i32 (l2 c)) 1) as [Q|]; [take F0; unfold make_table in F0; take F0; exact Q|].
    destruct (Z.eqb_spec (i32 (l2 c)) 2) as [Q|].
    { take F0. unfold make_sammy in F0. destruct (lB _) as [|r0 [|r1 [|r2 [|r3 [|r4 [|r5 l]]]]]]; try discriminate F0. injection F0 as <-. exact Q. }
    destruct (Z.eqb_spec (i32 (l2 c)) 3) as [Q|]; [|discriminate F0].
    take F0. unfold make_frohner in F0. destruct (lB _) as [|r0 [|r1 [|r2 [|r3 l]]]]; try discriminate F0. injection F0 as <-. exact Q. }
  split. { intros lfw. apply from_cont; intros c mat mf mt s x s' E. take E. unfold make_range in E. take E. cbn [rg_el rg_eh rg_params rg_radius rg_naps].
    split; [reflexivity|]. split; [reflexivity|].
    assert (Q : i32 (n1 c) = match y with None => 0 | Some _ => 1 end).
    { unfold rd_radius in F. destruct (Z.eqb_spec (i32 (n1 c)) 0); [take F; assumption|]. destruct (Z.eqb_spec (i32 (n1 c)) 1); [take F; assumption|discriminate F]. }
    unfold rd_params in F0.
    repeat match type of F0 with
    | (if ?a =? ?b then _ else _) _ = Ok _ _ => destruct (Z.eqb_spec a b); [|]
    | throw _ _ = Ok _ _ => discriminate F0
    end; unfold rd_special in F0; take F0; cbn; repeat split; auto. }
  apply from_cont; intros c mat mf mt s x s' E; take E. apply lift_ok in F. unfold cast_int in F. apply int_op_val in F as [F _]. fin.
Qed.
(** printing *)
Theorem C58_file2_print :
  (forall x, len (rs_lvalues x) < 2 ^ 31 -> to_record pr_resolved x (rs_spi x) (rs_ap x) (if rs_lad x then 1 else 0) 0 (len (rs_lvalues x)) (rs_nlsc x))
  /\ (forall a b, to_record pr_params (Special a b) a b 0 0 0 0)
  /\ (forall A (pr : A -> Z -> Z -> Z -> text) x, len (un_lvalues x) < 2 ^ 31 ->
       to_record (pr_unresolved pr) x (un_spi x) (un_ap x) (if un_lssf x then 1 else 0) 0 (len (un_lvalues x)) 0)
  /\ (forall x, len (jg_j x) < 2 ^ 31 -> to_record pr_jgroup x (jg_awri x) rzero (jg_l x) 0 (len (jg_j x)) 0)
  /\ (forall x, len (rm_groups x) < 2 ^ 31 -> to_record pr_rml x rzero rzero (if rm_ifg x then 1 else 0) (rm_krm x) (len (rm_groups x)) (if rm_krl x then 1 else 0))
  /\ (forall n b, to_record pr_entry (mkentry n b) rzero rzero n
       (match b with NoBackground => 0 | TableBackground _ _ => 1 | SammyBackground _ _ _ _ _ _ _ => 2 | FrohnerBackground _ _ _ _ _ => 3 end) 0 0)
  /\ (forall x, to_record pr_range x (rg_el x) (rg_eh x)
       (match rg_params x with Special _ _ => 0 | SLBW _ | MLBW _ | ReichMoore _ | RMatrix _ => 1 | _ => 2 end)
       (match rg_params x with Special _ _ => 0 | SLBW _ | CaseA _ | CaseB _ => 1 | MLBW _ | CaseC _ => 2 | ReichMoore _ => 3 | RMatrix _ => 7 end)
       (match rg_radius x with None => 0 | Some _ => 1 end) (rg_naps x))
  /\ (forall x, len (ri_ranges x) < 2 ^ 31 -> to_record pr_resisotope x (of_int (ri_zai x)) (ri_abn x) 0 (if ri_lfw x then 1 else 0) (len (ri_ranges x)) 0).
Proof.
  split. { intros x L. eapply to_is; [reflexivity|]. unfold resolved_head. rewrite isize_len by exact L. reflexivity. }
  split. { intros a b. eapply (to_is _ _ _ _ _ _ _ _ _ (fun _ _ _ => [])); [intros; symmetry; apply app_nil_r|reflexivity]. }
  split. { intros A pr x L. eapply to_is; [reflexivity|]. unfold unresolved_head. rewrite isize_len by exact L. reflexivity. }
  split. { intros x L. eapply to_is; [reflexivity|]. unfold jgroup_head. rewrite isize_len by exact L. reflexivity. }
  split. { intros x L. eapply to_is; [reflexivity|]. unfold rml_head. rewrite isize_len by exact L. reflexivity. }
  split. { intros n b. eapply to_is; [reflexivity|]. destruct b; reflexivity. }
  split. { intros x. eapply to_is; [reflexivity|]. unfold range_head. destruct (rg_params x); reflexivity. }
  intros x L. eapply to_is; [reflexivity|]. unfold resisotope_head. rewrite isize_len by exact L. reflexivity.
Qed.

(** ** File 32 *)
(** a control record in line n *)
Definition record_at (n : nat) (mat mf mt : Z) (t : text) (a b : real) (c d e f : Z) : Prop :=
  cont_in_columns (nth_line t n) a b c d e f /\ carries mat mf mt (nth_line t n).
Definition lru32 (p : cparams) : Z := match p with Unresolved32 _ => 2 | _ => 1 end.
Definition lrf32 (p : cparams) : Z :=
  match p with
  | LimitedSLBW _ | GeneralSLBW _ | CompactSLBW _ | Unresolved32 _ => 1 | LimitedMLBW _ | GeneralMLBW _ | CompactMLBW _ => 2
  | GeneralRM _ | CompactRM _ => 3 | GeneralRML _ | CompactRML _ => 7
  end.
Definition there_is {A} (o : option A) : Z := match o with Some _ => 1 | None => 0 end.
(** reading: SPI AP - - NLS ISR; - DAP - - - -; SPI AP - - NLS ISR (general); SPI AP LAD - NLS ISR (compact); - - NJSX - - -; SPI AP - - NLS -; - - - - - NI;
    EL EH LRU LRF NRO NAPS; ZAI ABN - LFW NER -; - - NDIGIT NNN NM -.  NM is the number of lines of the packed matrix, which is not kept *)
Theorem C58_file32_read :
  from_record rd_limited (fun x a b c d e f => lm_spi x = a /\ lm_ap x = b /\ counts e (lm_lvalues x) /\ (lm_dap x <> None <-> f <> 0))
  /\ from_record rd_dap (fun x a b c d e f => x = b)
  /\ (forall D S (rdD : Z -> Z -> Z -> M D) (rdS : Z -> Z -> Z -> M S), from_record (rd_general rdD rdS)
       (fun x a b c d e f => ge_spi x = a /\ ge_ap x = b /\ ge_nls x = e mod 2 ^ 32 /\ (ge_dap x <> None <-> f <> 0)))
  /\ (forall D U (rdD : Z -> Z -> Z -> M D) (rdU : Z -> Z -> Z -> M U), from_record (rd_compact rdD rdU)
       (fun x a b c d e f => co_spi x = a /\ co_ap x = b /\ co_l1 x = c /\ co_n1 x = e /\ (co_dap x <> None <-> f <> 0)))
  /\ from_record rd_short_rml (fun x a b c d e f => counts c (sr_groups x))
  /\ from_record rd_unres32 (fun x a b c d e f => u32_spi x = a /\ u32_ap x = b /\ counts e (u32_lvalues x))
  /\ from_record rd_radcov (fun x a b c d e f => counts f x)
  /\ from_record rd_corr (fun x a b c d e f => cm_ndigit x = c mod 2 ^ 32 /\ cm_nnn x = i32 d)
  /\ from_record rd_crange (fun x a b c d e f => cr_el x = a /\ cr_eh x = b /\ i32 c = lru32 (cr_params x) /\ (i32 c = 2 \/ i32 d = lrf32 (cr_params x))
       /\ i32 e = there_is (cr_radius x) /\ cr_naps x = i32 f)
  /\ from_record rd_cisotope (fun x a b c d e f => ci_zai x = a /\ ci_abn x = b /\ says d (ci_lfw x) /\ counts e (ci_ranges x)).
Proof.
  assert (W : forall A (rd : Z -> Z -> Z -> M A) z mat mf mt s o s', rd_when rd (z2b z) mat mf mt s = Ok o s' -> o <> None <-> z <> 0).
  { intros A rd z mat mf mt s o s' E. unfold rd_when, z2b in E. destruct (Z.eqb_spec z 0); cbn in E; take E; [|split; congruence]. split; [congruence|lia]. }
  split. { apply from_cont; intros c mat mf mt s x s' E; unfold make_limited in E; take E; fin; eapply W; eassumption. }
  split. { apply from_cont; intros c mat mf mt s x s' E; take E; fin. }
  split. { intros D S rdD rdS. apply from_cont; intros c mat mf mt s x s' E; unfold make_general in E; take E; fin; eapply W; eassumption. }
  split. { intros D U rdD rdU. apply from_cont; intros c mat mf mt s x s' E; take E; fin; eapply W; eassumption. }
  split. { apply from_cont; intros c mat mf mt s x s' E; take E; fin. }
  split. { apply from_cont; intros c mat mf mt s x s' E; take E; fin. }
  split. { apply from_cont; intros c mat mf mt s x s' E. exact (rd_all_count _ _ _ _ _ _ _ _ E). }
  split. { apply from_cont; intros c mat mf mt s x s' E. take E. unfold make_corr in E. take E. unfold require in F. destruct (digits_ok (u32 (l1 c))) eqn:B; [|discriminate F].
    unfold digits_ok in B. cbn [cm_ndigit cm_nnn]. split; [rewrite i32_id by (unfold int32; lia); reflexivity|apply i32_u32]. }
  split. { apply from_cont; intros c mat mf mt s x s' E. take E. unfold make_crange in E. take E. cbn [cr_el cr_eh cr_params cr_radius cr_naps].
    split; [reflexivity|]. split; [reflexivity|].
    assert (Q : i32 (n1 c) = there_is y).
    { unfold rd_cradius in F. destruct (Z.eqb_spec (i32 (n1 c)) 0); [take F; assumption|]. destruct (Z.eqb_spec (i32 (n1 c)) 1); [take F; assumption|discriminate F]. }
    unfold rd_cparams in F0. apply bind_ok in F0 as (c' & t1 & _ & F0). unfold rd_cparams_of in F0.
    repeat match type of F0 with
    | (if ?a =? ?b then _ else _) _ = Ok _ _ => destruct (Z.eqb_spec a b); [|]
    | throw _ _ = Ok _ _ => discriminate F0
    end; apply bind_ok in F0 as (v & t2 & _ & F0); injection F0 as <- <-; cbn; repeat split; auto. }
  apply from_cont; intros c mat mf mt s x s' E; take E; fin.
Qed.
(** the second record of the general covariances: AWRI - - - NSRS NLRS, after the record of the uncertainty of the radius if there is one *)
Definition after_dap (o : option real) : nat := match o with None => 1 | Some _ => 2 end.
Definition after_list (o : option listr) : nat := match o with None => 1 | Some l => (2 + (length (lB l) + 5) / 6)%nat end.
Definition second {D S} (rd : Z -> Z -> Z -> M (general D S)) (k : option D -> nat) : Prop := forall mat mf mt s x s', rd mat mf mt s = Ok x s' ->
  exists b c d e f, record_at (k (ge_dap x)) mat mf mt (buf s) (ge_awri x) b c d e f /\ counts e (ge_short x) /\ counts f (ge_long x).
Lemma second_of {D S} rdD (rdS : Z -> Z -> Z -> M S) (k : option D -> nat) : k None = 1%nat ->
  (forall mat mf mt s d s', rdD mat mf mt s = Ok d s' -> exists n, k (Some d) = Datatypes.S n /\ buf s' = drop_lines n (buf s)) ->
  second (rd_general rdD rdS) k.
Proof.
  intros K0 KD mat mf mt s x s' E. unfold rd_general, make_general in E. take E. cbn [ge_dap ge_awri ge_short ge_long].
  assert (L1 : buf t = drop_lines 1 (buf s)).
  { exact (proj2 (rd_cont_next _ _ _ _ _ _ F)). }
  assert (L2 : nth_line (buf t0) 0 = nth_line (buf s) (k y0)).
  { unfold rd_when in F0. destruct (z2b (n2 y)); take F0.
    - destruct (KD _ _ _ _ _ _ F4) as (n & -> & ->). rewrite L1, !drop_lines_nth. f_equal. lia.
    - rewrite K0, L1, drop_lines_nth. reflexivity. }
  pose proof (rd_begins _ _ _ _ _ _ F1) as [B1 B2]. rewrite L2 in B1, B2. do 5 eexists. split; [split; eassumption|]. split; [exact (rd_all_count _ _ _ _ _ _ _ _ F2)|exact (rd_all_count _ _ _ _ _ _ _ _ F3)].
Qed.
Lemma rd_list_next mat mf mt s d s' : rd_list mat mf mt s = Ok d s' -> buf s' = drop_lines (1 + (length (lB d) + 5) / 6) (buf s).
Proof.
  intros E. destruct (proj1 (proj2 (proj2 (proj2 (C09_record_reads_consume_own_lines mat mf mt)))) _ _ _ E) as (n & B1 & B2 & B3). rewrite B1. f_equal.
  pose proof (proj1 (C09_lines_consumed_is_NC mat mf mt s s') d E) as L. rewrite B2 in L.
  assert (D := Nat2Z.inj_div (length (lB d) + 5) 6). rewrite Nat2Z.inj_add in D. change (Z.of_nat 5) with 5 in D. change (Z.of_nat 6) with 6 in D. lia.
Qed.
Theorem C58_file32_second_read :
  second (rd_general rd_dap (rd_checked check_short)) after_dap
  /\ second (rd_general rd_list (rd_checked check_short)) after_list
  /\ second (rd_general rd_no_dap rd_short_rml) (fun _ => 1%nat).
Proof.
  split; [|split]; apply second_of; try reflexivity; intros mat mf mt s d s' E.
  - unfold rd_dap in E. take E. exists 1%nat. split; [reflexivity|]. exact (proj2 (rd_cont_next _ _ _ _ _ _ F)).
  - exists (1 + (length (lB d) + 5) / 6)%nat. split; [reflexivity|].
    exact (rd_list_next _ _ _ _ _ _ E).
  - discriminate E.
Qed.
(** printing *)
Theorem C58_file32_print :
  (forall x, len (lm_lvalues x) < 2 ^ 31 -> to_record pr_limited x (lm_spi x) (lm_ap x) 0 0 (len (lm_lvalues x)) (there_is (lm_dap x)))
  /\ (forall x, to_record pr_dap x rzero x 0 0 0 0)
  /\ (forall D S (prD : D -> Z -> Z -> Z -> text) (prS : S -> Z -> Z -> Z -> text) x,
       to_record (pr_general prD prS) x (ge_spi x) (ge_ap x) 0 1 (ge_nls x) (there_is (ge_dap x)))
  /\ (forall D U (prD : D -> Z -> Z -> Z -> text) (prU : U -> Z -> Z -> Z -> text) x,
       to_record (pr_compact prD prU) x (co_spi x) (co_ap x) (co_l1 x) 2 (co_n1 x) (there_is (co_dap x)))
  /\ (forall x, len (sr_groups x) < 2 ^ 31 -> to_record pr_short_rml x rzero rzero (len (sr_groups x)) 0 0 0)
  /\ (forall x, len (u32_lvalues x) < 2 ^ 31 -> to_record pr_unres32 x (u32_spi x) (u32_ap x) 0 0 (len (u32_lvalues x)) 0)
  /\ (forall x, len x < 2 ^ 31 -> to_record pr_radcov x rzero rzero 0 0 0 (len x))
  /\ (forall x, to_record pr_crange x (cr_el x) (cr_eh x) (lru32 (cr_params x)) (lrf32 (cr_params x)) (there_is (cr_radius x)) (cr_naps x))
  /\ (forall x, len (ci_ranges x) < 2 ^ 31 -> to_record pr_cisotope x (ci_zai x) (ci_abn x) 0 (if ci_lfw x then 1 else 0) (len (ci_ranges x)) 0).
Proof.
  split. { intros x L. eapply to_is; [reflexivity|]. unfold limited_head. rewrite isize_len by exact L. reflexivity. }
  split. { intros x. eapply (to_is _ _ _ _ _ _ _ _ _ (fun _ _ _ => [])); [intros; symmetry; apply app_nil_r|reflexivity]. }
  split. { intros D S prD prS x. eapply to_is; reflexivity. }
  split. { intros D U prD prU x. eapply to_is; reflexivity. }
  split. { intros x L. eapply to_is; [reflexivity|]. unfold short_rml_head. rewrite isize_len by exact L. reflexivity. }
  split. { intros x L. eapply to_is; [reflexivity|]. unfold unres32_head. rewrite isize_len by exact L. reflexivity. }
  split. { intros x L. eapply to_is; [reflexivity|]. unfold radcov_head. rewrite isize_len by exact L. reflexivity. }
  split. { intros x. eapply to_is; [reflexivity|]. unfold crange_head. destruct (cr_params x); reflexivity. }
  intros x L. eapply to_is; [reflexivity|]. unfold cisotope_head. rewrite isize_len by exact L. reflexivity.
Qed.
(** the second record of printed general covariances; those of the R-matrix formalism never hold a radius uncertainty *)
Definition second_print {D S} (pr : general D S -> Z -> Z -> Z -> text) (okD : D -> Prop) (k : option D -> nat) : Prop := forall x mat mf mt,
  0 < mat < 10000 -> 0 < mf < 100 -> 0 < mt < 1000 -> endf_real (ge_spi x) -> endf_real (ge_ap x) -> endf_real (ge_awri x) -> in_cols 11 (ge_nls x) ->
  (forall d, ge_dap x = Some d -> okD d) -> len (ge_short x) < 2 ^ 31 -> len (ge_long x) < 2 ^ 31 ->
  record_at (k (ge_dap x)) mat mf mt (pr x mat mf mt) (ge_awri x) rzero 0 0 (len (ge_short x)) (len (ge_long x)).
Lemma second_print_of {D S} (prD : D -> Z -> Z -> Z -> text) (prS : S -> Z -> Z -> Z -> text) (okD : D -> Prop) (k : option D -> nat) : k None = 1%nat ->
  (forall d mat mf mt, good_tail mat mf mt -> okD d -> exists n, k (Some d) = Datatypes.S n /\ forall rest, drop_lines n (prD d mat mf mt ++ rest) = rest) ->
  second_print (pr_general prD prS) okD k.
Proof.
  intros K0 KD x mat mf mt Hm Hf Ht Hs Ha Hw Hn Hd L1 L2. assert (G : good_tail mat mf mt) by (split; [|split]; unfold in_cols; cbn; lia).
  assert (Z0 : in_cols 11 0) by (unfold in_cols; cbn; lia). assert (O : in_cols 11 1) by (unfold in_cols; cbn; lia).
  assert (N1 : in_cols 11 (len (ge_short x))) by (apply cols32, int32_len, L1). assert (N2 : in_cols 11 (len (ge_long x))) by (apply cols32, int32_len, L2).
  unfold pr_general. set (h2 := pr_cont (general_counts x) mat mf mt ++ _).
  assert (B : begins mat mf mt h2 (ge_awri x) rzero 0 0 (len (ge_short x)) (len (ge_long x))).
  { unfold h2, general_counts. rewrite !isize_len by assumption. apply (pr_begins (mkcont _ _ _ _ _ _)); cbn; auto using endf_okr, renorm_zero. now apply renorm_zero. }
  set (h := general_head x). assert (K : okcont h).
  { unfold okcont, h, general_head. cbn [c1 c2 l1 l2 n1 n2]. split; [now apply endf_okr|]. split; [now apply endf_okr|].
    split; [apply in_cols_fits; auto; lia|]. split; [apply in_cols_fits; auto; lia|]. split; [apply in_cols_fits; auto; lia|]. apply in_cols_fits; [lia|]. destruct (ge_dap x); assumption. }
  set (rest := pr_opt prD (ge_dap x) mat mf mt ++ h2).
  assert (E : drop_lines 1 (pr_cont h mat mf mt ++ rest) = rest) by (symmetry; exact (proj2 (rd_cont_next _ _ _ _ _ _ (reads_cont h mat mf mt K (good_oktail _ _ _ G) rest 0)))).
  enough (F : nth_line (pr_cont h mat mf mt ++ rest) (k (ge_dap x)) = nth_line h2 0) by (unfold record_at; rewrite F; exact B).
  destruct (ge_dap x) as [d|] eqn:Ed.
  - destruct (KD d mat mf mt G (Hd d eq_refl)) as (n & -> & Dn). change (Datatypes.S n) with (1 + n)%nat. rewrite <- drop_lines_nth, E. unfold rest. cbn [pr_opt].
    rewrite <- (Nat.add_0_r n), <- drop_lines_nth, Dn. reflexivity.
  - rewrite K0. change 1%nat with (1 + 0)%nat. rewrite <- drop_lines_nth, E. reflexivity.
Qed.
Theorem C58_file32_second_print :
  second_print (pr_general pr_dap pr_list) endf_real after_dap
  /\ second_print (pr_general pr_list pr_list) endf_list after_list
  /\ second_print (pr_general pr_list pr_short_rml) (fun _ => False) (fun _ => 1%nat).
Proof.
  split; [|split]; apply second_print_of; try reflexivity; intros d mat mf mt G K.
  - exists 1%nat. split; [reflexivity|]. intros rest. symmetry. unfold pr_dap. refine (proj2 (rd_cont_next _ _ _ _ _ _ (reads_cont (mkcont rzero d 0 0 0 0) mat mf mt _ (good_oktail _ _ _ G) rest 0))).
    unfold okcont. cbn [c1 c2 l1 l2 n1 n2]. split; [now apply renorm_zero|]. split; [now apply endf_okr|]. repeat split; apply in_cols_fits; try lia; unfold in_cols; cbn; lia.
  - exists (1 + (length (lB d) + 5) / 6)%nat. split; [reflexivity|]. intros rest. symmetry.
    exact (rd_list_next _ _ _ _ _ _ (reads_list d mat mf mt (endf_oklist _ K) (good_oktail _ _ _ G) rest 0)).
  - contradiction.
Qed.

(** ** the covariance files 31, 33, 34, 40 *)
(** reading: XMF1 XLFS1 MAT1 MT1 NC NI; - - - LTY - -; - - L L1 LCT NI; - - - MT1 NL NL1; QM QI IZAP LFS - NSS *)
Theorem C58_covariances_read :
  from_record rd_block (fun x a b c d e f => xmf1 x = round_int a /\ xlfs1 x = round_int b /\ mat1 x = i32 c /\ mt1 x = i32 d
       /\ len (b_nc x) = Z.max 0 (i32 e) /\ counts f (b_ni x))
  /\ from_record rd_derived (fun x a b c d e f => match x with Redundant _ => d = 0 | Ratio lty _ => d = lty /\ 1 <= lty <= 3 end)
  /\ from_record rd_legblock (fun x a b c d e f => lg_l x = i32 c /\ lg_l1 x = i32 d /\ lg_lct x = i32 e /\ counts f (lg_data x))
  /\ (forall sec, from_record (rd_block34 sec) (fun x a b c d e f => b34_mt1 x = i32 d /\ b34_nl x = i32 e /\ b34_nl1 x = i32 f))
  /\ from_record rd_level (fun x a b c d e f => lv_qm x = a /\ lv_qi x = b /\ lv_izap x = i32 c /\ lv_lfs x = i32 d /\ counts f (lv_reactions x)).
Proof.
  split. { apply from_cont; intros c mat mf mt s x s' E. take E. unfold mk_block in E. take E. unfold cast_int in *. apply int_op_val in H as [<- _]. apply int_op_val in H0 as [<- _].
    cbn. repeat split; try cnt. clear -F. unfold len. enough (length y = Z.to_nat (i32 (n1 c))) by lia.
    revert F. generalize (Z.to_nat (i32 (n1 c))) as k. intros k. revert s y t. induction k as [|k IH]; intros s y t E; cbn [rd_n] in E; take E; [reflexivity|].
    cbn. f_equal. eapply IH; eassumption. }
  split. { apply from_cont; intros c mat mf mt s x s' E. destruct (Z.eqb_spec (l2 c) 0) as [Q|]; [take E; exact Q|].
    destruct ((1 <=? l2 c) && (l2 c <=? 3)) eqn:B; [|discriminate E]. take E. split; [reflexivity|lia]. }
  split. { apply from_cont; intros c mat mf mt s x s' E. take E. fin. }
  split. { intros sec. apply from_cont; intros c mat mf mt s x s' E. take E. unfold make_block34 in E. take E. fin. }
  apply from_cont; intros c mat mf mt s x s' E. take E. fin.
Qed.
Theorem C58_covariances_print :
  (forall x, len (b_nc x) < 2 ^ 31 -> len (b_ni x) < 2 ^ 31 -> to_record pr_block x (of_int (xmf1 x)) (of_int (xlfs1 x)) (mat1 x) (mt1 x) (len (b_nc x)) (len (b_ni x)))
  /\ (forall l, to_record pr_derived (Redundant l) rzero rzero 0 0 0 0)
  /\ (forall lty l, to_record pr_derived (Ratio lty l) rzero rzero 0 lty 0 0)
  /\ (forall x, len (lg_data x) < 2 ^ 31 -> to_record pr_legblock x rzero rzero (lg_l x) (lg_l1 x) (lg_lct x) (len (lg_data x)))
  /\ (forall x, to_record pr_block34 x rzero rzero 0 (b34_mt1 x) (b34_nl x) (b34_nl1 x))
  /\ (forall x, len (lv_reactions x) < 2 ^ 31 -> to_record pr_level x (lv_qm x) (lv_qi x) (lv_izap x) (lv_lfs x) 0 (len (lv_reactions x))).
Proof.
  split. { intros x L M. eapply to_is; [reflexivity|]. unfold block_head. rewrite !isize_len by assumption. reflexivity. }
  split. { intros l. eapply to_is; reflexivity. }
  split. { intros lty l. eapply to_is; reflexivity. }
  split. { intros x L. eapply to_is; [reflexivity|]. unfold leg_head. rewrite isize_len by exact L. reflexivity. }
  split. { intros x. eapply to_is; reflexivity. }
  intros x L. eapply to_is; [reflexivity|]. unfold level_head. rewrite isize_len by exact L. reflexivity.
Qed.

(** ** Files 4 and 14 *)
(** the record after the HEAD of File 4: - AWR LI LCT - -, LI = 1 when all angular distributions are isotropic; isotropic photons in File 14: EG ES - - - - *)
Theorem C58_angular :
  (forall h, from_record (rd_body4 h) (fun x a b c d e f => lct4 x = i32 d))
  /\ (forall awr x, to_record (pr_body4 awr) x (of_int 0) awr (match dist_of4 x with Isotropic4 => 1 | _ => 0 end) (lct4 x) 0 0)
  /\ from_record rd_iso (fun x a b c d e f => x = Isotropic14 a b)
  /\ (forall a b, to_record pr_photon14 (Isotropic14 a b) a b 0 0 0 0).
Proof.
  split. { intros h. apply from_cont; intros c mat mf mt s x s' E. take E. reflexivity. }
  split. { intros awr x. eapply to_is; [reflexivity|]. destruct (dist_of4 x); reflexivity. }
  split. { apply from_cont; intros c mat mf mt s x s' E. take E. reflexivity. }
  intros a b. eapply (to_is _ _ _ _ _ _ _ _ _ (fun _ _ _ => [])); [intros; symmetry; apply app_nil_r|reflexivity].
Qed.

(** ** C57, reading: what the flags and counts of the HEAD say about what is read, for any text *)
Definition read_head {B} (k : skind B) (P : B -> Z -> Z -> Z -> Z -> Prop) : Prop := forall h mat s x s',
  rd_section k h mat s = Ok x s' -> P (s_body x) (l1 (sbase h)) (l2 (sbase h)) (n1 (sbase h)) (n2 (sbase h)).
Lemma read_body {B} (k : skind B) (P : B -> Z -> Z -> Z -> Z -> Prop) :
  (forall h mat mf mt s x s', k_read k h mat mf mt s = Ok x s' -> P x (l1 (sbase h)) (l2 (sbase h)) (n1 (sbase h)) (n2 (sbase h))) -> read_head k P.
Proof.
  intros H h mat s x s' E. unfold rd_section in E. apply bind_ok in E as ([za awr] & s1 & _ & E). apply bind_ok in E as (b & s2 & E2 & E). apply bind_ok in E as (u & s3 & _ & E).
  injection E as <- <-. exact (H _ _ _ _ _ _ _ E2).
Qed.
Definition lnu_of (m : mult) : Z := match m with PolynomialMultiplicity _ => 1 | TabulatedMultiplicity _ => 2 end.
Ltac rdh := apply read_body; intros h mat mf mt s x s' E;
  cbn [k_read sec_452 sec_456 sec_nubar sec_455 sec_458 sec_460 sec_451 sec_2_151 sec_2_152 sec_32_151 sec_31 sec_33 sec_34 sec_35 sec_40 sec_4 sec_5 sec_6 sec_26 sec_7_2 sec_7_4 sec_7_451
       sec_8_454 sec_8_459 sec_yields sec_8_457 sec_9 sec_10 sec_levels sec_12 sec_13 sec_14 sec_15 sec_28] in E.
Theorem C57_read_file1 :
  read_head sec_451 (fun x a b c d => d_lrp x = i32 a /\ d_lfi x = i32 b /\ d_nlib x = i32 c /\ d_nmod x = i32 d)
  /\ read_head sec_452 (fun x a b c d => i32 b = lnu_of x) /\ read_head sec_456 (fun x a b c d => i32 b = lnu_of x)
  /\ read_head sec_455 (fun x a b c d => i32 a = (match fst x with EnergyIndependent _ => 0 | EnergyDependent _ => 1 end) /\ i32 b = lnu_of (snd x))
  /\ read_head sec_458 (fun x a b c d => i32 b = match x with Sec1.Tabulated _ _ _ => 1 | _ => 0 end)
  /\ read_head sec_460 (fun x a b c d => match x with DiscretePhotons l => i32 a = 1 /\ i32 c = len l | ContinuousPhotons _ => i32 a = 2 end).
Proof.
  assert (M : forall n mat mf mt s x s', rd_mult n mat mf mt s = Ok x s' -> i32 n = lnu_of x).
  { intros n mat mf mt s x s' E. unfold rd_mult in E. destruct (Z.eqb_spec (i32 n) 1) as [->|]; [take E; reflexivity|]. destruct (Z.eqb_spec (i32 n) 2) as [->|]; [take E; reflexivity|discriminate E]. }
  split. { rdh. unfold rd_descr in E. take E. cbn. auto. }
  split. { rdh. exact (M _ _ _ _ _ _ _ E). }
  split. { rdh. exact (M _ _ _ _ _ _ _ E). }
  split. { rdh. take E. cbn [fst snd]. split; [|exact (M _ _ _ _ _ _ _ F0)]. unfold rd_decay_data in F.
    destruct (Z.eqb_spec (i32 (l1 (sbase h))) 0) as [->|]; [take F; reflexivity|]. destruct (Z.eqb_spec (i32 (l1 (sbase h))) 1) as [->|]; [take F; reflexivity|discriminate F]. }
  split. { rdh. unfold rd_fission_q in E. destruct (Z.eqb_spec (i32 (l2 (sbase h))) 0) as [->|].
    - apply bind_ok in E as (l & t & _ & E). apply bind_ok in E as (u & t1 & _ & E). destruct (lL2 l =? 0); take E; reflexivity.
    - destruct (Z.eqb_spec (i32 (l2 (sbase h))) 1) as [->|]; [|discriminate E]. take E; reflexivity. }
  rdh. unfold rd_photons in E. destruct (Z.eqb_spec (i32 (l1 (sbase h))) 1) as [Q|].
  - take E. split; [exact Q|]. pose proof (rd_all_count rd_tab1 _ _ _ _ _ _ _ F) as C. unfold counts in C. now rewrite i32_id in C by apply i32_range.
  - destruct (Z.eqb_spec (i32 (l1 (sbase h))) 2) as [Q|]; [|discriminate E]. take E; exact Q.
Qed.
Theorem C57_read_files2to8 :
  read_head sec_2_151 (fun x a b c d => counts c x) /\ read_head sec_32_151 (fun x a b c d => counts c x)
  /\ read_head sec_2_152 (fun x a b c d => says a (sh_lssf x) /\ sh_interpolation x = i32 d)
  /\ read_head sec_4 (fun x a b c d => b = match dist_of4 x with Isotropic4 => 0 | Legendre4 _ => 1 | Tabulated4 _ => 2 | Mixed4 _ _ => 3 end)
  /\ read_head sec_5 (fun x a b c d => counts c x)
  /\ read_head sec_6 (fun x a b c d => jp6 x = i32 a /\ lct6 x = i32 b /\ counts c (products6 x)) /\ read_head sec_26 (fun x a b c d => counts c x)
  /\ read_head sec_7_2 (fun x a b c d => i32 a = match x with Coherent _ => 1 | Incoherent _ => 2 | Mixed _ _ => 3 end)
  /\ read_head sec_7_4 (fun x a b c d => th_lat x = i32 b /\ th_lasym x = i32 c) /\ read_head sec_7_451 (fun x a b c d => counts a x)
  /\ read_head sec_8_454 (fun x a b c d => counts a x) /\ read_head sec_8_459 (fun x a b c d => counts a x)
  /\ read_head sec_8_457 (fun x a b c d => d_lis x = i32 a mod 2 ^ 32 /\ d_liso x = i32 b mod 2 ^ 32 /\ counts d (d_spectra x)).
Proof.
  split. { rdh. unfold rd_151, make_isotopes in E. take E. cnt. }
  split. { rdh. unfold rd_32_151, make_cisotopes in E. take E. cnt. }
  split. { rdh. unfold rd_152 in E. take E. fin. }
  split. { rdh. unfold rd_body4, rd_dist4 in E. take E. cbn [dist_of4].
    repeat match type of F0 with (if ?a =? ?b then _ else _) _ = Ok _ _ => destruct (Z.eqb_spec a b); [|] | throw _ _ = Ok _ _ => discriminate F0 end; take F0; assumption. }
  split. { rdh. unfold rd_nonempty in E. take E. cnt. }
  split. { rdh. unfold rd_body6 in E. take E. fin. }
  split. { rdh. exact (rd_all_count _ _ _ _ _ _ _ _ E). }
  split. { rdh. unfold rd_elastic in E.
    repeat match type of E with (if ?a =? ?b then _ else _) _ = Ok _ _ => destruct (Z.eqb_spec a b); [|] | throw _ _ = Ok _ _ => discriminate E end; take E; assumption. }
  split. { rdh. unfold Sec7.rd_thermal, Sec7.make_thermal in E. take E. fin. }
  split. { rdh. unfold rd_elements in E. take E. cnt. }
  split. { rdh. exact (rd_all_count _ _ _ _ _ _ _ _ E). }
  split. { rdh. exact (rd_all_count _ _ _ _ _ _ _ _ E). }
  rdh. unfold rd_decay8 in E. take E. fin.
Qed.
Lemma rd_while_len {A} (rd : Z -> Z -> Z -> M A) n mat mf mt s l s' : rd_while rd n mat mf mt s = Ok l s' -> n = len l.
Proof.
  unfold rd_while. destruct (n <? 0) eqn:N; [discriminate|]. intros E. assert (L : length l = Z.to_nat n); [|unfold len; lia].
  revert s l s' E. induction (Z.to_nat n) as [|k IH]; intros s l s' E; cbn [rd_n] in E; [injection E as <- <-; reflexivity|]. take E. cbn [length]. f_equal. exact (IH _ _ _ F0).
Qed.
Theorem C57_read_files9to40 :
  read_head sec_9 (fun x a b c d => lv_lis x = i32 a /\ counts c (lv_products x)) /\ read_head sec_10 (fun x a b c d => lv_lis x = i32 a /\ counts c (lv_products x))
  /\ read_head sec_12 (fun x a b c d => match x with Multiplicities m => i32 a = 1 /\ counts c (mu_partials m) | TransitionProbabilities _ => i32 a = 2 end)
  /\ read_head sec_13 (fun x a b c d => counts c (mu_partials x))
  /\ read_head sec_14 (fun x a b c d => match x with AllIsotropic n => n = i32 c | Photons p ps => a <> 1 /\ c = len (p :: ps) end)
  /\ read_head sec_15 (fun x a b c d => counts c x) /\ read_head sec_28 (fun x a b c d => counts c x)
  /\ read_head sec_31 (fun x a b c d => counts d x) /\ read_head sec_33 (fun x a b c d => fst x = i32 b /\ counts d (snd x))
  /\ read_head sec_34 (fun x a b c d => fst x = i32 b /\ counts d (snd x)) /\ read_head sec_35 (fun x a b c d => counts c x)
  /\ read_head sec_40 (fun x a b c d => fst x = i32 a /\ counts c (snd x)).
Proof.
  split. { rdh. unfold rd_levels in E. take E. fin. }
  split. { rdh. unfold rd_levels in E. take E. fin. }
  split. { rdh. unfold rd_production in E. destruct (Z.eqb_spec (i32 (l1 (sbase h))) 1) as [Q|].
    - apply bind_ok in E as (m & t & E1 & E). unfold rd_multiplicities in E1. take E1. take E. fin.
    - destruct (Z.eqb_spec (i32 (l1 (sbase h))) 2) as [Q|]; [|discriminate E]. take E. exact Q. }
  split. { rdh. unfold rd_multiplicities in E. take E. fin. }
  split. { rdh. unfold rd_body14 in E. take E.
    unfold rd_photons14 in F. destruct (Z.eqb_spec (l1 (sbase h)) 1) as [Q|Q]; [take F; reflexivity|]. take F.
    apply rd_while_len in F1. assert (W : n1 (sbase h) = len (y1 ++ y2)).
    { unfold len. rewrite app_length. fold (@len photon14). destruct (Z.eqb_spec (n1 (sbase h) - n2 (sbase h)) 0) as [Z0|]; [take F2; unfold len in *; cbn [length]; lia|].
      destruct (l2 (sbase h) =? 1); [apply rd_while_len in F2; unfold len in *; lia|]. destruct (l2 (sbase h) =? 2); [apply rd_while_len in F2; unfold len in *; lia|discriminate F2]. }
    unfold body14_of. destruct (y1 ++ y2) as [|p ps]; [reflexivity|]. split; assumption. }
  split. { rdh. unfold rd_nonempty in E. take E. cnt. }
  split. { rdh. exact (rd_all_count _ _ _ _ _ _ _ _ E). }
  split. { rdh. exact (rd_all_count _ _ _ _ _ _ _ _ E). }
  split. { rdh. take E. fin. }
  split. { rdh. take E. fin. }
  split. { rdh. exact (rd_all_count _ _ _ _ _ _ _ _ E). }
  rdh. take E. fin.
Qed.

From Verif Require Import Sec8Spec Sec8Proofs PropSec8 Sec2Spec PropSec2.
(** ** what the reader does not look at: NST of 8/457; all but LO of a section 12 with transition probabilities; all four integers of sections 3, 23, 27.  What
    is then printed follows the contents. *)
Definition with_ints (h : sdiv) (a b c d : Z) : sdiv := mksdiv (mkcont (c1 (sbase h)) (c2 (sbase h)) a b c d) (smat h) (smf h) (smt h).
Theorem C57_ignored : forall h mat s,
  (forall nst, rd_section sec_8_457 (with_ints h (l1 (sbase h)) (l2 (sbase h)) nst (n2 (sbase h))) mat s = rd_section sec_8_457 h mat s)
  /\ (i32 (l1 (sbase h)) = 2 -> forall b c d, rd_section sec_12 (with_ints h (l1 (sbase h)) b c d) mat s = rd_section sec_12 h mat s)
  /\ (forall a b c d, rd_section sec_3 (with_ints h a b c d) mat s = rd_section sec_3 h mat s /\ rd_section sec_23 (with_ints h a b c d) mat s = rd_section sec_23 h mat s
        /\ rd_section sec_27 (with_ints h a b c d) mat s = rd_section sec_27 h mat s).
Proof.
  intros h mat s. split; [reflexivity|]. split; [|intros; split; [reflexivity|split; reflexivity]].
  intros L b c d. unfold rd_section. cbn [k_read sec_12 with_ints sbase l1]. unfold rd_production. cbn [l1]. rewrite L. reflexivity.
Qed.
(** so a nuclide with two decay modes is read from a text that says it is stable (NST = 1), and printed with NST = 0 *)
Theorem C57_refuted_stable : exists h mat s x s', rd_section sec_8_457 h mat s = Ok x s' /\ n1 (sbase h) = 1 /\ d_nst (s_body x) = false.
Proof.
  destruct C51_example_457 as (G1 & G2 & G3 & G4).
  destruct (sc_round_trip _ _ _ C51_mf8_457 (mksect 92235 r_pi 457 xdecay8) 9228 ltac:(lia) G1 G2 G3 G4) as (body & _ & _ & R). specialize (R [] 0).
  unfold parse_section in R. apply bind_ok in R as (h & t & _ & R). exists (with_ints h (l1 (sbase h)) (l2 (sbase h)) 1 (n2 (sbase h))), 9228, t. do 2 eexists.
  split; [rewrite (proj1 (C57_ignored h 9228 t)); exact R|]. split; [reflexivity|]. vm_compute. reflexivity.
Qed.

(** non-trivial cases: a File 2 with two isotopes, with resolved, R-matrix, unresolved and special ranges is read, so its HEAD and every control record inside satisfy the above *)
Example C57_read_example : exists h s x s', rd_section sec_2_151 h 9228 s = Ok x s' /\ s_body x = x151 /\ i32 (n1 (sbase h)) = 2.
Proof.
  destruct C46_example_151 as (G1 & G2 & G3 & G4).
  destruct (sc_round_trip _ _ _ C46_mf2_151 (mksect 92235 r_pi 151 x151) 9228 ltac:(lia) G1 G2 G3 G4) as (body & _ & _ & R). specialize (R [] 0).
  unfold parse_section in R. apply bind_ok in R as (h & t & _ & R). exists h, t. do 2 eexists. split; [exact R|]. split; [reflexivity|].
  exact (proj1 C57_read_files2to8 _ _ _ _ _ R).
Qed.
Example C58_example : exists s x s', rd_resisotope 9228 2 151 s = Ok x s' /\ [x] = firstn 1 x151 /\ len (ri_ranges x) = 3.
Proof.
  destruct C46_example_151 as (_ & _ & G3 & G4 & _). cbn [s_body] in G3, G4. assert (E : x151 = nth 0 x151 (mkresisotope 0 r_one false []) :: tl x151) by reflexivity.
  rewrite E in G3, G4. apply Forall_inv in G3, G4. eexists _, _, _. split; [|split].
  - exact (co_reads _ _ _ _ _ cod_resisotope 9228 2 151 _ ltac:(split; [|split]; unfold in_cols; cbn; lia) G3 G4 [] 0).
  - reflexivity.
  - reflexivity.
Qed.
