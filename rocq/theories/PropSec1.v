(** PropSec1.v -- C37, C38, C39, C40, C45: sections of File 1, Files 3, 23, 27 and
    what holds for every section class. *)
From Coq Require Import ZifyBool ZifyNat.
From Verif Require Import Base Disco DiscoProofs Records RecordProofs RecordRT RecordSound Layout
  RealRound RealProofs Spec Normal LineFacts Sections SecSpec Codec SectionProofs Sec1 Sec1Spec Sec1Proofs
  PropRecords ExKit.
Open Scope Z_scope.

(** ** C38 *)
Theorem C38_mf3 : section_codec sec_3 rep_tab1 inv_tab1.
Proof. apply codec_tab. lia. Qed.
Theorem C38_mf23 : section_codec sec_23 rep_tab1 inv_tab1.
Proof. apply codec_tab. lia. Qed.
Theorem C38_mf27 : section_codec sec_27 rep_tab1 inv_tab1.
Proof. apply codec_tab. lia. Qed.
Theorem C38_NC : forall x : sect tab1, nc_section sec_3 x = 1 + nc_tab1 (s_body x)
  /\ nc_section sec_23 x = 1 + nc_tab1 (s_body x) /\ nc_section sec_27 x = 1 + nc_tab1 (s_body x).
Proof. auto. Qed.
Example C38_example : meets sec_3 rep_tab1 inv_tab1 (mksect 92235 r_pi 102 (xtab1 0 3)).
Proof. unfold meets; cbn [s_body]; xt. Qed.

(** ** C37 *)
Theorem C37_mt452 : section_codec sec_452 rep_mult inv_mult.
Proof. apply codec_nubar. lia. Qed.
Theorem C37_mt456 : section_codec sec_456 rep_mult inv_mult.
Proof. apply codec_nubar. lia. Qed.
Theorem C37_mt455 : section_codec sec_455 (fun b => rep_decay_data (fst b) /\ rep_mult (snd b))
  (fun b => inv_decay_data (fst b) /\ inv_mult (snd b)).
Proof. exact codec_455. Qed.
Example C37_example_452 : meets sec_452 rep_mult inv_mult (mksect 92235 r_pi 452 (PolynomialMultiplicity (xlist 0 0 0 [r_one; r_tiny])))
  /\ meets sec_452 rep_mult inv_mult (mksect 92235 r_pi 452 (TabulatedMultiplicity (xtab1 0 0))).
Proof. unfold meets, rep_mult, inv_mult; cbn [s_body sec_452 sec_nubar]; xt. Qed.
Lemma decay_example l : len (lB l) = 4 -> inv_decay l.
Proof. intros H. exists 4. rewrite H. split; [|split; [lia|now exists 2]]. split; [split; lia|reflexivity]. Qed.
Example C37_example_455 : meets sec_455 (fun b => rep_decay_data (fst b) /\ rep_mult (snd b))
  (fun b => inv_decay_data (fst b) /\ inv_mult (snd b))
  (mksect 92235 r_pi 455
     (EnergyDependent (mkiseq (xtab2 0 0) [xlist 0 0 0 [r_one; r_tiny; r_pi; r_pi]; xlist 0 0 0 [r_one; r_tiny; r_one; r_pi];
                                           xlist 0 0 0 [r_one; r_tiny; r_pi; r_tiny]]),
      TabulatedMultiplicity (xtab1 0 0))).
Proof.
  unfold meets, rep_mult, inv_mult, rep_decay_data, inv_decay_data; cbn [s_body fst snd]; xt.
  1-3: apply decay_example; reflexivity.
  intros l l' [<-|[<-|[<-|[]]]] [<-|[<-|[<-|[]]]]; reflexivity.
Qed.

(** a value other than 1 or 2 of LNU, other than 0 or 1 of LDG, is rejected *)
Lemma throws_bind {A B} (m : M A) (f : A -> M B) : only_std m ->
  (forall a s, exists e s', f a s = Err e s' /\ is_std e = true) ->
  forall s, exists e s', bind m f s = Err e s' /\ is_std e = true.
Proof.
  intros H K s. specialize (H s). unfold bind. destruct (m s) as [a s1|e s1|]; [apply K|eauto|destruct H].
Qed.
Lemma sec_head_std chk wmt h mat mf : int32 (round_int (c1 (sbase h))) -> only_std (sec_head chk wmt h mat mf).
Proof.
  intros Hz. unfold sec_head. apply only_std_bind.
  - unfold head_za32. unfold int32 in Hz. destruct (Z.leb_spec (-2147483648) (round_int (c1 (sbase h)))); [|lia].
    destruct (Z.ltb_spec (round_int (c1 (sbase h))) 2147483648); [|lia]. apply only_std_ret.
  - intros za. repeat (apply only_std_bind; [apply only_std_require|intros]). apply only_std_ret.
Qed.
Lemma section_rejects {B} (k : skind B) h mat : int32 (round_int (c1 (sbase h))) ->
  (forall s, exists e s', k_read k h (k_rmat k h mat) (k_mf k) (k_rmt k h) s = Err e s' /\ is_std e = true) ->
  forall s, exists e s', rd_section k h mat s = Err e s' /\ is_std e = true.
Proof.
  intros Hz H. unfold rd_section. apply throws_bind; [now apply sec_head_std|]. intros [za awr] s.
  unfold bind at 1. destruct (H s) as (e & s' & -> & E). eauto.
Qed.
Lemma rd_mult_rejects lnu mat mf mt s : i32 lnu <> 1 -> i32 lnu <> 2 -> rd_mult lnu mat mf mt s = Err EStd s.
Proof. intros A B. unfold rd_mult. replace (i32 lnu =? 1) with false by lia. replace (i32 lnu =? 2) with false by lia. reflexivity. Qed.
(** the representation flags are 1 or 2 (LNU) and 0 or 1 (LDG), as ints *)
Theorem C37_LNU_rejected : forall k h mat s, k = sec_452 \/ k = sec_456 ->
  int32 (round_int (c1 (sbase h))) -> ~ as_int (l2 (sbase h)) 1 -> ~ as_int (l2 (sbase h)) 2 ->
  exists e s', rd_section k h mat s = Err e s' /\ is_std e = true.
Proof.
  intros k h mat s Hk Hz A B. rewrite as_int_eq in A, B. apply section_rejects; [exact Hz|].
  intros s0. destruct Hk as [->| ->]; cbn; rewrite rd_mult_rejects by auto; eauto.
Qed.
Theorem C37_455_flags_rejected : forall h mat s, int32 (round_int (c1 (sbase h))) ->
  (~ as_int (l1 (sbase h)) 0 /\ ~ as_int (l1 (sbase h)) 1) \/ (~ as_int (l2 (sbase h)) 1 /\ ~ as_int (l2 (sbase h)) 2) ->
  exists e s', rd_section sec_455 h mat s = Err e s' /\ is_std e = true.
Proof.
  intros h mat s Hz H. rewrite !as_int_eq in H. apply section_rejects; [exact Hz|]. intros s0. cbn.
  destruct H as [[A B]|[A B]].
  - unfold bind at 1, rd_decay_data. replace (i32 (l1 (sbase h)) =? 0) with false by lia. replace (i32 (l1 (sbase h)) =? 1) with false by lia. cbn. eauto.
  - apply throws_bind; [apply std_decay_data|]. intros d s1. unfold bind. rewrite rd_mult_rejects by auto. eauto.
Qed.
(** LNU() and LDG() of a section that was read are the flags of the HEAD *)
Theorem C37_flags_kept : forall h mat s s' x, rd_section sec_455 h mat s = Ok x s' ->
  as_int (l1 (sbase h)) (LDG (fst (s_body x))) /\ as_int (l2 (sbase h)) (LNU (snd (s_body x))).
Proof.
  intros h mat s s' x E. unfold rd_section in E. apply bind_ok in E. destruct E as ([za awr] & s1 & _ & E).
  apply bind_ok in E. destruct E as (b & s2 & E1 & E). apply bind_ok in E. destruct E as (? & s3 & _ & E).
  injection E as <- _. cbn in E1 |- *. apply bind_ok in E1. destruct E1 as (d & s4 & E1 & E).
  apply bind_ok in E. destruct E as (m & s5 & E2 & E). injection E as <- _. cbn. rewrite !as_int_eq. split.
  - unfold rd_decay_data in E1. destruct (i32 (l1 (sbase h)) =? 0) eqn:F0.
    + apply bind_ok in E1. destruct E1 as (? & ? & _ & E1). injection E1 as <- _. cbn. lia.
    + destruct (i32 (l1 (sbase h)) =? 1) eqn:F1; [|discriminate]. apply bind_ok in E1. destruct E1 as (? & ? & _ & E1).
      apply bind_ok in E1. destruct E1 as (? & ? & _ & E1). injection E1 as <- _. cbn. lia.
  - unfold rd_mult in E2. destruct (i32 (l2 (sbase h)) =? 1) eqn:F0.
    + apply bind_ok in E2. destruct E2 as (? & ? & _ & E2). injection E2 as <- _. cbn. lia.
    + destruct (i32 (l2 (sbase h)) =? 2) eqn:F1; [|discriminate]. apply bind_ok in E2. destruct E2 as (? & ? & _ & E2).
      injection E2 as <- _. cbn. lia.
Qed.
(** a DecayConstants object gives back the constants and abundances it was made of *)
Theorem C37_decay_constants : forall energy constants abundances,
  (constants <> [] /\ length abundances = length constants ->
     exists l, make_decay energy constants abundances = Val l /\ lC2 l = energy /\ (lC1 l = rzero /\ lL1 l = 0 /\ lL2 l = 0 /\ lN2 l = 0)
       /\ lambdas l = constants /\ alphas l = abundances /\ len (lB l) = 2 * len constants)
  /\ (~ (constants <> [] /\ length abundances = length constants) -> make_decay energy constants abundances = Throw EStd).
Proof.
  intros e xs ys. unfold make_decay. split.
  - intros [H1 H2]. destruct (Nat.eqb_spec (length xs) 0) as [E|_]; [destruct xs; [congruence|discriminate]|].
    rewrite H2, Nat.eqb_refl. cbn [negb]. eexists. split; [reflexivity|]. split; [reflexivity|]. split; [repeat split|]. clear H1.
    unfold lambdas, alphas, len. cbn [lB]. revert ys H2. induction xs as [|x xs IH]; intros [|y ys] H2; try discriminate.
    + auto.
    + injection H2 as H2. destruct (IH ys H2) as (A & B & C). cbn [interleave every_other skipn length] in *.
      split; [now rewrite A|]. split; [|lia]. 
      destruct xs as [|x' xs], ys as [|y' ys]; try discriminate; [reflexivity|]. cbn [interleave every_other skipn] in *. now f_equal.
  - intros H. destruct (Nat.eqb_spec (length xs) 0) as [E|E]; [reflexivity|].
    destruct (Nat.eqb_spec (length xs) (length ys)) as [F|F]; [|reflexivity]. exfalso. apply H. split; [intros ->; apply E; reflexivity|auto].
Qed.

(** ** C45 *)
Theorem C45_mt458 : section_codec sec_458 rep_fission_q inv_fission_q.
Proof. exact codec_458. Qed.
Theorem C45_mt460 : section_codec sec_460 rep_photons inv_photons.
Proof. exact codec_460. Qed.
Definition ex_18 : list real := repeat r_one 17 ++ [r_pi].
Example C45_example_458 :
  meets sec_458 rep_fission_q inv_fission_q (mksect 92235 r_pi 458 (ThermalPoint (xlist 0 0 9 ex_18)))
  /\ meets sec_458 rep_fission_q inv_fission_q (mksect 92235 r_pi 458 (Polynomial (xlist 0 1 18 (ex_18 ++ ex_18))))
  /\ meets sec_458 rep_fission_q inv_fission_q (mksect 92235 r_pi 458
       (Tabulated 2 (xlist 0 0 9 ex_18) [None; Some (xtab1 1 2); None; None; Some (xtab1 2 5); None; None; None; None])).
Proof.
  unfold meets, rep_fission_q, inv_fission_q; cbn [s_body sec_458 k_fix good_number]. cbn [ex_18 repeat app].
  xt; [cbn [somes flat_map app]; xt|]. split; [reflexivity|]. intros i t.
  do 9 (destruct i as [|i]; [cbn [nth_error]; intros E; try discriminate; injection E as <-; (split; [xt|(split; [xt|first [left; xt; fail|right; xt; fail]])])|]). 
  destruct i; discriminate.
Qed.
Example C45_example_460 :
  meets sec_460 rep_photons inv_photons (mksect 92235 r_pi 460 (DiscretePhotons [xtab1 1 0; xtab1 2 0]))
  /\ meets sec_460 rep_photons inv_photons (mksect 92235 r_pi 460 (ContinuousPhotons (xlist 0 0 0 [r_one]))).
Proof. unfold meets, rep_photons, inv_photons; cbn [s_body]; xt. exists 1. xt. Qed.
(** constructing the tabulated form succeeds exactly for tables with distinct
    components 1..9, at least one, and holds each under its own number *)
Lemma place_fails n c recs : place n c recs = None -> (n < length recs)%nat -> exists t, nth_error recs n = Some (Some t).
Proof.
  revert recs. induction n as [|n IH]; intros [|[x|] recs] E L; cbn in *; try lia; try discriminate; eauto;
    destruct (place n c recs) eqn:F; try discriminate; apply IH; auto; lia.
Qed.
Lemma place_all_spec cs : Forall (fun c => component_ok c = true) cs -> forall recs, length recs = 9%nat ->
  (forall i t, nth_error recs i = Some (Some t) -> slot t = i) ->
  match place_all cs recs with
  | Val r => length r = 9%nat /\ NoDup (map slot cs) /\ (forall c, In c cs -> nth_error recs (slot c) = Some None)
             /\ (forall i t, nth_error r i = Some (Some t) <-> nth_error recs i = Some (Some t) \/ (In t cs /\ slot t = i))
  | Throw e => e = EStd /\ ~ (NoDup (map slot cs) /\ (forall c, In c cs -> nth_error recs (slot c) = Some None))
  | Undef => False
  end.
Proof.
  induction 1 as [|c cs Hc Hcs IH]; intros recs L W; cbn [place_all].
  - split; [exact L|]. split; [constructor|]. split; [intros ? []|]. intros i t. split; [auto|intros [A|[[] _]]; exact A].
  - assert (Sc : (slot c < 9)%nat) by (unfold component_ok in Hc; unfold slot; lia).
    destruct (place (slot c) c recs) as [r|] eqn:E.
    + destruct (place_inv _ _ _ _ E) as (A & B & C & D & F).
      assert (W' : forall i t, nth_error r i = Some (Some t) -> slot t = i).
      { intros i t Ei. destruct (Nat.eq_dec i (slot c)) as [->|Ne]; [rewrite B in Ei; injection Ei as <-; reflexivity|]. rewrite C in Ei by auto. auto. }
      specialize (IH r ltac:(lia) W'). destruct (place_all cs r) as [r'|e|]; [| |exact IH].
      * destruct IH as (I1 & I2 & I3 & I4). split; [exact I1|].
        assert (Nc : ~ In (slot c) (map slot cs)).
        { intros K. apply in_map_iff in K. destruct K as (c' & K1 & K2). specialize (I3 c' K2). rewrite K1, B in I3. discriminate. }
        split; [constructor; auto|]. split.
        -- intros c' [<-|Hc']; [exact A|]. rewrite <- C; [auto|]. intros K. apply Nc. rewrite <- K. now apply in_map.
        -- intros i t. rewrite I4. destruct (Nat.eq_dec i (slot c)) as [->|Ne].
           ++ rewrite B, A. split.
              ** intros [K|[K1 K2]]; [injection K as <-; right; split; [now left|reflexivity]|]. exfalso. apply Nc. rewrite <- K2. now apply in_map.
              ** intros [K|[[<-|K1] K2]]; [discriminate|now left|]. right. auto.
           ++ rewrite C by auto. split.
              ** intros [K|[K1 K2]]; [now left|]. right. split; [now right|auto].
              ** intros [K|[[<-|K1] K2]]; [now left|congruence|]. right. auto.
      * destruct IH as (I1 & I2). split; [exact I1|]. intros [K1 K2]. apply I2. cbn in K1. inversion K1 as [|? ? K3 K4]; subst. split; [exact K4|].
        intros c' Hc'. rewrite C; [apply K2; now right|]. intros Q. apply K3. rewrite <- Q. now apply in_map.
    + split; [reflexivity|]. intros [_ K]. destruct (place_fails _ _ _ E ltac:(lia)) as (t & T). rewrite (K c) in T by now left. discriminate.
Qed.
Theorem C45_458_tables : forall l cs, Forall (fun c => component_ok c = true) cs ->
  match make_tabulated l cs with
  | Val q => cs <> [] /\ NoDup (map slot cs) /\ exists r, q = Tabulated (len cs) l r /\ length r = 9%nat
             /\ forall i t, nth_error r i = Some (Some t) <-> In t cs /\ slot t = i
  | Throw e => e = EStd /\ (cs = [] \/ ~ NoDup (map slot cs))
  | Undef => False
  end.
Proof.
  intros l cs F. unfold make_tabulated. destruct (Nat.eqb_spec (length cs) 0) as [E|E].
  - split; [reflexivity|left]. now destruct cs.
  - assert (W0 : forall i (t : tab1), nth_error (repeat None 9) i <> Some (Some t)).
    { intros i t K. apply nth_error_In, repeat_spec in K. discriminate. }
    assert (N9 : forall c, In c cs -> nth_error (repeat (@None tab1) 9) (slot c) = Some None).
    { intros c Hc. rewrite Forall_forall in F. assert (Sc : (slot c < 9)%nat) by (specialize (F c Hc); unfold component_ok in F; unfold slot; lia).
      destruct (nth_error (repeat (@None tab1) 9) (slot c)) as [o|] eqn:K; [|apply nth_error_None in K; cbn in K; lia].
      apply nth_error_In, repeat_spec in K. now subst. }
    assert (H := place_all_spec cs F (repeat None 9) eq_refl ltac:(intros i t K; destruct (W0 i t K))).
    destruct (place_all cs (repeat None 9)) as [r|e|]; cbn [obind]; [| |exact H].
    + destruct H as (A & B & C & D). split; [intros ->; apply E; reflexivity|]. split; [exact B|]. exists r. split; [reflexivity|]. split; [exact A|].
      intros i t. rewrite D. split; [intros [K|K]; [destruct (W0 i t K)|exact K]|auto].
    + destruct H as [A B]. split; [exact A|right]. intros K. apply B. auto.
Qed.

(** ** C39, C40: every section class *)
(** a section that was constructed has ZA >= 1, AWR >= 0, and the MAT and MF of
    the HEAD are those asked for, except for section 1/455 (k_chk false) *)
Theorem C39_head_checked : forall B (k : skind B) h mat s x s', rd_section k h mat s = Ok x s' ->
  1 <= s_za x /\ real_le rzero (s_awr x) /\ (k_fix k = None -> 1 <= s_mt x)
  /\ (k_chk k = true -> smat h = mat /\ smf h = k_mf k).
Proof.
  intros B k h mat s x s' E. unfold rd_section in E. apply bind_ok in E. destruct E as ([za awr] & s1 & E1 & E).
  unfold sec_head in E1. apply bind_ok in E1. destruct E1 as (za' & s2 & _ & E1).
  apply bind_ok in E1. destruct E1 as (? & s3 & E3 & E1). apply require_ok in E3. destruct E3 as [S1 ->].
  apply bind_ok in E1. destruct E1 as (? & s3 & E3 & E1). apply require_ok in E3. destruct E3 as [S2 ->].
  apply bind_ok in E1. destruct E1 as (? & s3 & E3 & E1). apply require_ok in E3. destruct E3 as [S3 ->].
  apply bind_ok in E1. destruct E1 as (? & s3 & E3 & E1). apply require_ok in E3. destruct E3 as [S4 ->].
  injection E1 as <- <- <-.
  apply bind_ok in E. destruct E as (b & s4 & E2 & E). apply bind_ok in E. destruct E as (? & s3 & E3 & E). injection E as <- <-.
  cbn [s_za s_awr s_mt]. split; [lia|]. split; [apply rlt_zero; destruct (rlt _ _); auto; discriminate|].
  split; [unfold k_mt; intros K; rewrite K in *; lia|]. intros Ck. rewrite Ck in S4. lia.
Qed.
(** the constructors that take ZA, AWR (and MT) check the same *)
Theorem C39_constructor_checked : forall B wmt za awr mt (b : B),
  match make_section wmt za awr mt b with
  | Val x => x = mksect za awr mt b /\ 1 <= za /\ real_le rzero awr /\ (wmt = true -> 1 <= mt)
  | Throw e => e = EStd /\ (za < 1 \/ ~ real_le rzero awr \/ (wmt = true /\ mt < 1))
  | Undef => False
  end.
Proof.
  intros. unfold make_section. destruct (Z.ltb_spec za 1); cbn [orb]; [split; auto|].
  destruct (rlt awr rzero) eqn:R; cbn [orb].
  { split; [reflexivity|right; left]. rewrite <- rlt_zero. congruence. }
  apply rlt_zero in R. destruct wmt; cbn [andb].
  - destruct (Z.ltb_spec mt 1); [split; [reflexivity|right; right; split; [reflexivity|assumption]]|]. repeat split; auto.
  - repeat split; auto. discriminate.
Qed.
(** section 1/455 is the exception: it can be read from a HEAD of another material
    and another file *)
Theorem C39_455_refuted : exists h mat s x s', rd_section sec_455 h mat s = Ok x s' /\ smat h <> mat /\ smf h <> 1.
Proof.
  destruct C37_mt455 as [[RT _] _]. destruct C37_example_455 as (A & B & C & D).
  destruct (RT _ 9228 ltac:(lia) A B C D) as (body & _ & _ & P). specialize (P [] 0). unfold parse_section in P.
  apply bind_ok in P. destruct P as (h & s1 & _ & P).
  exists (mksdiv (sbase h) (9228 + 1) 2 455), 9228, s1. eexists. eexists. split; [|cbn; lia]. exact P.
Qed.
Theorem C39_others_checked : forallb (fun b => b)
  [k_chk sec_452; k_chk sec_456; k_chk sec_458; k_chk sec_460; k_chk sec_3; k_chk sec_23; k_chk sec_27] = true.
Proof. reflexivity. Qed.
(** after the fields, the line that closes a section is a SEND with its MAT and MF *)
Theorem C40_closed_by_SEND : forall B (k : skind B) h mat s x s', rd_section k h mat s = Ok x s' ->
  exists s1, k_read k h (k_rmat k h mat) (k_mf k) (k_rmt k h) s = Ok (s_body x) s1
    /\ consumed (ends_section mat (k_mf k)) s1 s' /\ line s' = line s1 + 1.
Proof.
  intros B k h mat s x s' E. unfold rd_section in E. apply bind_ok in E. destruct E as ([za awr] & s1 & E1 & E).
  assert (s1 = s).
  { unfold sec_head in E1. apply bind_ok in E1. destruct E1 as (za' & s2 & E0 & E1). unfold head_za32 in E0.
    cbv zeta in E0. destruct (_ && _) in E0; [|discriminate]. injection E0 as _ <-.
    repeat (apply bind_ok in E1; destruct E1 as (? & ? & E0 & E1); apply require_ok in E0; destruct E0 as [_ ->]). injection E1 as _ _ <-. reflexivity. }
  subst s1. apply bind_ok in E. destruct E as (b & s2 & E2 & E). apply bind_ok in E. destruct E as (? & s3 & E3 & E). injection E as <- <-.
  exists s2. split; [exact E2|]. exact (rd_SEND_sound _ _ _ _ _ E3).
Qed.
(** and anything else is rejected with std::exception *)
Theorem C40_not_closed : forall mat mf s, (forall s' u, rd_SEND mat mf s <> Ok u s') ->
  exists e s', rd_SEND mat mf s = Err e s' /\ is_std e = true.
Proof.
  intros mat mf s H. assert (K : only_std (rd_SEND mat mf)).
  { unfold rd_SEND. apply only_std_bind; [apply only_std_sdiv|intros]. repeat (apply only_std_bind; [apply only_std_require|intros]). apply only_std_require. }
  specialize (K s). destruct (rd_SEND mat mf s) as [u s'|e s'|]; [destruct (H s' u eq_refl)|eauto|destruct K].
Qed.
