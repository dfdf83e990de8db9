(** PropSec4.v -- C47 (File 4) and C48 (File 5). *)
From Coq Require Import ZifyBool ZifyNat.
From Verif Require Import Base Disco DiscoProofs Records RecordProofs RealRound RealProofs Spec Sections SecSpec Codec SectionProofs SecKit CodecKit
  PropRecords Sec9 Sec9Spec Sec9Proofs Sec4 Sec4Spec Sec4Proofs ExKit.
Open Scope Z_scope.

Theorem C47_mf4 : section_codec sec_4 rep_body4 inv_body4.
Proof. exact codec_4. Qed.
Definition xq4 : iseq listr := mkiseq (xtab2 0 0) [xlist 0 0 0 [r_one]; xlist 0 0 0 [r_pi; r_tiny]; xlist 0 0 0 []].
Definition xr4 : iseq tab1 := mkiseq (xtab2 0 0) [xtab1 0 0; xtab1 0 0; xtab1 0 0].
Example C47_example_4 : meets sec_4 rep_body4 inv_body4 (mksect 92235 r_pi 2 (mkbody4 2 (Mixed4 xq4 xr4))).
Proof.
  unfold meets, rep_body4, inv_body4, rep_dist4, inv_dist4, xq4, xr4; cbn [s_body lct4 dist_of4]. split; [xt|]. split; [xt|]. split; [xt|].
  split; [xt|]. split; [xt|].
  exists [xlist 0 0 0 [r_one]; xlist 0 0 0 [r_pi; r_tiny]], (xlist 0 0 0 []), (xtab1 0 0), [xtab1 0 0; xtab1 0 0].
  split; [reflexivity|]. split; [reflexivity|]. split; xt.
Qed.
Example C47_example_isotropic : meets sec_4 rep_body4 inv_body4 (mksect 92235 r_pi 16 (mkbody4 1 Isotropic4)).
Proof. unfold meets, rep_body4, inv_body4, rep_dist4, inv_dist4; cbn [s_body lct4 dist_of4]. xt. Qed.

(** LTT() is the one of the HEAD, LCT() the L2 of the second record (as an int), and the
    flag LI() is 1 exactly for an isotropic section *)
Theorem C47_flags : forall h mat s x s', rd_section sec_4 h mat s = Ok x s' ->
  LTT4 (dist_of4 (s_body x)) = l2 (sbase h)
  /\ (LI4 (dist_of4 (s_body x)) = 1 <-> dist_of4 (s_body x) = Isotropic4)
  /\ exists c s1, rd_cont mat 4 (smt h) s = Ok c s1 /\ as_int (l2 c) (lct4 (s_body x)).
Proof.
  intros h mat s x s' E. unfold rd_section in E. apply bind_ok in E. destruct E as ([za awr] & s1 & E1 & E).
  assert (Hs : s1 = s /\ smat h = mat).
  { unfold sec_head, head_za32 in E1. apply bind_ok in E1. destruct E1 as (z & t & A & E1). cbv zeta in A.
    destruct (_ && _) in A; [|discriminate]. injection A as _ <-.
    apply bind_ok in E1. destruct E1 as (? & t & A & E1). apply require_ok in A. destruct A as [_ ->].
    apply bind_ok in E1. destruct E1 as (? & t & A & E1). apply require_ok in A. destruct A as [_ ->].
    apply bind_ok in E1. destruct E1 as (? & t & A & E1). apply require_ok in A. destruct A as [_ ->].
    apply bind_ok in E1. destruct E1 as (? & t & A & E1). apply require_ok in A. destruct A as [A ->]. injection E1 as _ _ <-. split; [reflexivity|]. cbn [sec_4 k_chk k_mf] in A. lia. }
  destruct Hs as [-> Hm]. apply bind_ok in E. destruct E as (b & s2 & Eb & E).
  apply bind_ok in E. destruct E as (? & s3 & _ & E). injection E as <- _. cbn [s_body].
  cbn [sec_4 k_read] in Eb. unfold rd_body4, k_rmat, k_rmt, k_mt in Eb. cbn [sec_4 k_hm k_own k_fix k_mf] in Eb. rewrite Hm in Eb.
  apply bind_ok in Eb. destruct Eb as (c & s4 & Ec & Eb). apply bind_ok in Eb. destruct Eb as (d & s5 & Ed & Eb). injection Eb as <- _. cbn [dist_of4 lct4].
  split; [|split].
  - unfold rd_dist4 in Ed. destruct (Z.eqb_spec (l2 (sbase h)) 0) as [->|]; [injection Ed as <- _; reflexivity|].
    destruct (Z.eqb_spec (l2 (sbase h)) 1) as [->|]; [apply bind_ok in Ed; destruct Ed as (? & ? & _ & K); injection K as <- _; reflexivity|].
    destruct (Z.eqb_spec (l2 (sbase h)) 2) as [->|]; [apply bind_ok in Ed; destruct Ed as (? & ? & _ & K); injection K as <- _; reflexivity|].
    destruct (Z.eqb_spec (l2 (sbase h)) 3) as [->|]; [apply bind_ok in Ed; destruct Ed as (? & ? & _ & K); injection K as <- _; reflexivity|discriminate].
  - destruct d; cbn; split; congruence.
  - exists c, s4. split; [exact Ec|apply as_int_i32].
Qed.

(** the getters of a section that was read agree with each other: one incident energy per
    distribution, and interpolation regions that cover exactly these *)
Lemma ascending_app_shift : forall (a : list Z) b, ascending Z.le a -> ascending Z.le b -> (forall x y, In x a -> In y b -> x <= y) -> ascending Z.le (a ++ b).
Proof.
  induction a as [|x a IH]; intros b Ha Hb H; [exact Hb|].
  destruct a as [|y a].
  - destruct b as [|z b]; [exact I|]. cbn [app]. split; [apply H; cbn; auto|exact Hb].
  - destruct Ha as [H1 H2]. cbn [app]. split; [exact H1|]. apply (IH b); auto. intros u v Hu Hv. apply H; [right; exact Hu|exact Hv].
Qed.
Lemma ascending_last : forall l x d, ascending Z.le l -> In x l -> x <= last l d.
Proof.
  induction l as [|y l IH]; intros x d A H; [destruct H|]. destruct l as [|z l].
  - destruct H as [->|[]]. reflexivity.
  - destruct A as [A1 A2]. change (last (y :: z :: l) d) with (last (z :: l) d). destruct H as [<-|H]; [|now apply IH].
    specialize (IH z d A2 (or_introl eq_refl)). lia.
Qed.
Lemma ascending_shift k : forall l, ascending Z.le l -> ascending Z.le (map (fun i => i + k) l).
Proof. induction l as [|x l IH]; [auto|]. destruct l as [|y l]; [auto|]. cbn in *. intros [A B]. split; [lia|now apply IH]. Qed.
Lemma last_map_shift k : forall l d, l <> [] -> last (map (fun i => i + k) l) (d) = last l d + k.
Proof. induction l as [|x l IH]; intros d H; [congruence|]. destruct l as [|y l]; [reflexivity|]. change (last (map (fun i => i + k) (x :: y :: l)) d) with (last (map (fun i => i + k) (y :: l)) d). rewrite IH by discriminate. reflexivity. Qed.
Lemma last_app_ne {A} : forall (a b : list A) d, b <> [] -> last (a ++ b) d = last b d.
Proof.
  induction a as [|x a IH]; intros b d H; [reflexivity|]. cbn [app]. rewrite <- (IH b d H). destruct (a ++ b) eqn:E; [destruct a, b; discriminate || congruence|reflexivity].
Qed.
Theorem C47_getters : forall d, inv_dist4 d -> rep_dist4 d -> len (energies4 d) < 2 ^ 31 -> len (NBT4 d) < 2 ^ 31 ->
  NE4 d = len (energies4 d) /\ NR4 d = len (NBT4 d) /\ length (INT4 d) = length (NBT4 d)
  /\ ((forall q r, d = Mixed4 q r -> Forall (Z.le 0) (tbnd (istab r))) -> ascending Z.le (NBT4 d))
  /\ (d <> Isotropic4 -> NBT4 d <> [] /\ last (NBT4 d) 0 = NE4 d).
Proof.
  assert (K : forall C (inv : C -> Prop) q, inv_seq inv any q -> last (tbnd (istab q)) 0 < 2 ^ 31 ->
     inv_tab2 (istab q) /\ tn2 (istab q) = len (isrec q)).
  { intros C inv q (I1 & I2 & I3 & _) R. split; [exact I1|]. destruct I1 as (_ & _ & _ & I1). rewrite Z.mod_small in I3 by lia. exact I3. }
  intros d I R L1 L2. destruct d as [|q|q|q r]; cbn [inv_dist4 rep_dist4 energies4 NBT4 NE4 NR4 INT4] in *.
  - split; [reflexivity|]. split; [reflexivity|]. split; [reflexivity|]. split; [intros _; exact Logic.I|congruence].
  - destruct R as (R1 & R2 & R3). destruct (K _ _ _ I R2) as ((A & B & C & D) & E). unfold len in *. rewrite map_length in *.
    unfold tn2, tnr in *. rewrite !i32_id by (unfold int32; lia). repeat split; auto.
  - destruct R as (R1 & R2 & R3). destruct (K _ _ _ I R2) as ((A & B & C & D) & E). unfold len in *. rewrite map_length in *.
    unfold tn2, tnr in *. rewrite !i32_id by (unfold int32; lia). repeat split; auto.
  - destruct R as ((R1 & R2 & R3) & (R1' & R2' & R3')). destruct I as ((Iq & Ir) & _).
    destruct (K _ _ _ Iq R2) as ((A & B & C & D) & E). destruct (K _ _ _ Ir R2') as ((A' & B' & C' & D') & E').
    unfold len in *. rewrite app_length, !map_length in *. rewrite ?app_length, ?map_length in *. 
    unfold tnr. rewrite !i32_id by (unfold int32; lia).
    split; [lia|]. split; [lia|]. split; [lia|]. split.
    + intros P. specialize (P q r eq_refl). rewrite Forall_forall in P. apply ascending_app_shift; [exact C|now apply ascending_shift|]. intros x y Hx Hy. apply in_map_iff in Hy. destruct Hy as (z & <- & Hz).
      assert (x <= tn2 (istab q)) by (now apply ascending_last).
      specialize (P z Hz). lia.
    + intros _. split; [destruct (tbnd (istab q)); [congruence|discriminate]|].
      rewrite last_app_ne by (destruct (tbnd (istab r)); [congruence|discriminate]). rewrite last_map_shift by assumption. unfold tn2 in *. lia.
Qed.

(** a mixed distribution: the ranges and schemes of the Legendre part, then those of the tables with boundaries that count on *)
Theorem C47_mixed_ranges : forall q r, length (tint (istab q)) = length (tbnd (istab q)) -> forall i,
  ((i < length (tbnd (istab q)))%nat -> nth_error (NBT4 (Mixed4 q r)) i = nth_error (tbnd (istab q)) i /\ nth_error (INT4 (Mixed4 q r)) i = nth_error (tint (istab q)) i)
  /\ let j := (i + length (tbnd (istab q)))%nat in
     nth_error (INT4 (Mixed4 q r)) j = nth_error (tint (istab r)) i
     /\ forall b, nth_error (NBT4 (Mixed4 q r)) j = Some b <-> exists b', nth_error (tbnd (istab r)) i = Some b' /\ b = b' + last (tbnd (istab q)) 0.
Proof.
  intros q r L i. cbn [NBT4 INT4]. split.
  - intros H. rewrite !nth_error_app1 by lia. auto.
  - cbv zeta. rewrite !nth_error_app2 by lia. rewrite L. replace (i + length (tbnd (istab q)) - length (tbnd (istab q)))%nat with i by lia. split; [reflexivity|].
    intros b. rewrite nth_error_map. unfold tn2. destruct (nth_error (tbnd (istab r)) i) as [z|]; cbn; split; [intros K; injection K as <-; eauto|intros (b' & K & ->); injection K as ->; reflexivity|discriminate|intros (b' & K & _); discriminate].
Qed.

(** the constructor of a mixed distribution accepts exactly the joined ones *)
Theorem C47_mixed : forall q r, isrec q <> [] -> isrec r <> [] ->
  (joined q r -> make_mixed4 q r = Val (Mixed4 q r)) /\ (~ joined q r -> make_mixed4 q r = Throw EStd).
Proof.
  intros q r _ _. unfold make_mixed4. split; intros H.
  - apply mixed_ok_spec in H. now rewrite H.
  - destruct (mixed_ok q r) eqn:E; [|reflexivity]. destruct H. now apply mixed_ok_spec.
Qed.

(** ** File 5 *)
Theorem C48_mf5 : section_codec sec_5 (Forall rep_p5) (some_of inv_p5).
Proof. exact codec_5. Qed.
Example C48_example_5 : meets sec_5 (Forall rep_p5) (some_of inv_p5)
  (mksect 94239 r_pi 18 [mkp5 (xtab1 0 1) (TabulatedSpectrum xr4); mkp5 (xtab1 0 5) (GeneralEvaporation (xtab1 0 0) (xtab1 0 0));
     mkp5 (xtab1 0 7) (MaxwellianFission (xtab1 0 0)); mkp5 (xtab1 0 9) (Evaporation (xtab1 0 0));
     mkp5 (xtab1 0 11) (Watt (xtab1 0 0) (xtab1 0 0)); mkp5 (xtab1 0 12) (MadlandNix (xtab1 0 0))]).
Proof.
  unfold meets, some_of, xr4; cbn [s_body]. split; [xt|]. split; [xt|].
  assert (H : forall d, rep_dist5 d -> rep_p5 (mkp5 (xtab1 0 (LF5 d)) d)).
  { intros d Hd. split; [|exact Hd]. cbn [p5_prob]. destruct d; cbn [LF5]; xt. }
  assert (H' : forall d, inv_dist5 d -> inv_p5 (mkp5 (xtab1 0 (LF5 d)) d)).
  { intros d Hd. split; [cbn [p5_prob]; destruct d; cbn [LF5]; xt|]. split; [cbn [p5_prob p5_dist xtab1 tbase xtab2 tL2]; destruct d; cbn [LF5]; xt|exact Hd]. }
  split; [|split; [|xt]].
  - repeat (constructor; [match goal with |- rep_p5 (mkp5 _ ?d) => apply (H d); cbn [rep_dist5]; xt end|]). constructor.
  - repeat (constructor; [match goal with |- inv_p5 (mkp5 _ ?d) => apply (H' d); cbn [inv_dist5]; xt end|]). constructor.
Qed.
(** the constructor of a partial distribution accepts exactly the matching LF *)
Theorem C48_partial_ctor : forall p d,
  (as_int (tL2 (tbase p)) (LF5 d) -> make_p5 p d = Val (mkp5 p d))
  /\ (~ as_int (tL2 (tbase p)) (LF5 d) -> make_p5 p d = Throw EStd).
Proof.
  intros p d. unfold make_p5, LF_prob. rewrite as_int_eq. destruct (Z.eqb_spec (i32 (tL2 (tbase p))) (LF5 d)); split; tauto.
Qed.
(** NK() of a section that was read is the number of its partial distributions, and the count in
    the HEAD (as an int) *)
Theorem C48_count : forall h mat s x s', rd_section sec_5 h mat s = Ok x s' ->
  isize (s_body x) = len (s_body x) /\ as_int (n1 (sbase h)) (len (s_body x)) /\ 0 < len (s_body x).
Proof.
  intros h mat s x s' E. unfold rd_section in E. apply bind_ok in E. destruct E as ([za awr] & s1 & E1 & E).
  apply bind_ok in E. destruct E as (b & s2 & Eb & E). apply bind_ok in E. destruct E as (? & s3 & _ & E). injection E as <- _. cbn [s_body].
  cbn [sec_5 k_read] in Eb. unfold rd_nonempty in Eb. apply bind_ok in Eb. destruct Eb as (l & s4 & El & Eb).
  apply bind_ok in Eb. destruct Eb as (? & s5 & Er & Eb). apply require_ok in Er. destruct Er as [Er ->]. injection Eb as <- _.
  apply (co_post _ _ _ _ _ (cod_all _ _ _ _ _ (n1 (sbase h)) cod_p5)) in El. destruct El as [_ El].
  assert (K := i32_pos_bound (n1 (sbase h))). assert (K' := len_nonneg l). rewrite isize_len in * by lia.
  split; [reflexivity|]. split; [apply as_int_eq; auto|lia].
Qed.
