(** PropNamed.v -- C60: what is given to a constructor by name comes back under the same name. *)
From Coq Require Import ZifyBool ZifyNat QArith.
From Verif Require Import Base Disco DiscoProofs Records RecordProofs RecordRT RecordSound Layout Normal LineFacts RealRound RealProofs Spec Sections SecSpec Codec SectionProofs SecKit CodecKit
  PropRecords PropRecords3 Sec1 Sec1Spec PropSec1 Sec9 Sec9Spec Sec9Proofs PropSec9 Sec4 Sec4Spec Sec4Proofs Sec6 Sec6Spec Sec6Proofs Sec6Safe Sec33 Sec33Spec Sec33Proofs ExKit PropSec6 PropSec33
  Sec8 Sec8Spec Sec8Proofs PropSec8 Sec7 Sec7Spec Sec7Proofs PropSec7 PropParts Parts.
Open Scope Z_scope.

(** ** specification *)
(** the curve of a table, as the accessors report it *)
Definition tells (t : tab1) (bnd int : list Z) (x y : list real) : Prop :=
  boundaries t = bnd /\ interpolants t = int /\ NRt t = len bnd /\ NPt t = len x /\ tx t = x /\ ty t = y.
(** printing and reading give the same value, whatever follows *)
Definition survives {A} (rd : Z -> Z -> Z -> M A) (pr : A -> Z -> Z -> Z -> text) (a : A) : Prop :=
  forall mat mf mt rest ln, good_tail mat mf mt -> exists ln', rd mat mf mt (mkst (pr a mat mf mt ++ rest) ln) = Ok a (mkst rest ln').
(** a table that reports the curve, also after printing and reading if its numbers fit the columns *)
Definition keeps (t : tab1) (bnd int : list Z) (x y : list real) : Prop :=
  tells t bnd int x y /\ (rep_tab1 t -> survives rd_tab1 pr_tab1 t).

Lemma keeps_made C1 C2 L1 L2 bnd int x y : curve_ok bnd int x y -> keeps (mktab1 (mktab2 C1 C2 L1 L2 bnd int) x y) bnd int x y.
Proof.
  intros K. split; [repeat split|]. intros R mat mf mt rest ln T.
  assert (V : inv_tab1 (mktab1 (mktab2 C1 C2 L1 L2 bnd int) x y)).
  { destruct K as (A & B & C & D & E & F & G & H). unfold len in *. repeat split; cbn; auto; try lia; try congruence. }
  exists (ln + nc_tab1 (mktab1 (mktab2 C1 C2 L1 L2 bnd int) x y)). apply (co_reads _ _ _ _ _ cod_tab1 mat mf mt _ T R V).
Qed.
Lemma i32_in z : int32 z -> i32 z = z. Proof. intros H. apply i32_id. exact H. Qed.
(** proves the theorems below: the table is made, then every accessor is computed *)
Ltac made f := intros; unfold f; match goal with H : curve_ok _ _ _ _ |- _ =>
  rewrite make_tab1_ok by exact H; cbn [obind]; eexists; split; [reflexivity|]; cbn [tbase tC1 tC2 tL1 tL2]; rewrite ?i32_in by assumption; repeat (split; [reflexivity|]); apply keeps_made; exact H end.

(** ** tables *)
Theorem C60_product9 : forall qm qi izap lfs bnd int es ys, int32 izap -> int32 lfs -> curve_ok bnd int es ys ->
  exists t, make_product9 qm qi izap lfs bnd int es ys = Val t /\ QMp t = qm /\ QIp t = qi /\ IZAPp t = izap /\ LFSp t = lfs /\ keeps t bnd int es ys.
Proof. unfold QMp, QIp, IZAPp, LFSp. made make_product9. Qed.
Theorem C60_product10 : forall qm qi izap lfs bnd int es xs, int32 izap -> int32 lfs -> curve_ok bnd int es xs ->
  exists t, make_product10 qm qi izap lfs bnd int es xs = Val t /\ QMp t = qm /\ QIp t = qi /\ IZAPp t = izap /\ LFSp t = lfs /\ keeps t bnd int es xs.
Proof. unfold QMp, QIp, IZAPp, LFSp. made make_product10. Qed.
Theorem C60_partial12 : forall energy level lp law bnd int es ys, int32 lp -> int32 law -> curve_ok bnd int es ys ->
  exists t, make_partial12 energy level lp law bnd int es ys = Val t /\ EGp t = energy /\ ESp t = level /\ LPp t = lp /\ LFp t = law /\ keeps t bnd int es ys.
Proof. unfold EGp, ESp, LPp, LFp. made make_partial12. Qed.
Theorem C60_partial13 : forall energy level lp law bnd int es xs, int32 lp -> int32 law -> curve_ok bnd int es xs ->
  exists t, make_partial13 energy level lp law bnd int es xs = Val t /\ EGp t = energy /\ ESp t = level /\ LPp t = lp /\ LFp t = law /\ keeps t bnd int es xs.
Proof. unfold EGp, ESp, LPp, LFp. made make_partial13. Qed.
Theorem C60_total12 : forall bnd int es ys, curve_ok bnd int es ys ->
  exists t, make_total12 bnd int es ys = Val t /\ keeps t bnd int es ys.
Proof. made make_total12. Qed.
Theorem C60_total13 : forall bnd int es ys, curve_ok bnd int es ys ->
  exists t, make_total13 bnd int es ys = Val t /\ keeps t bnd int es ys.
Proof. made make_total13. Qed.
Theorem C60_energy_transfer : forall bnd int es ys, curve_ok bnd int es ys ->
  exists t, make_transfer bnd int es ys = Val t /\ keeps t bnd int es ys.
Proof. made make_transfer. Qed.
Theorem C60_effective_temperature5 : forall bnd int es ys, curve_ok bnd int es ys ->
  exists t, make_theta5 bnd int es ys = Val t /\ keeps t bnd int es ys.
Proof. made make_theta5. Qed.
Theorem C60_parameter5 : forall bnd int es ys, curve_ok bnd int es ys ->
  exists t, make_parameter5 bnd int es ys = Val t /\ keeps t bnd int es ys.
Proof. made make_parameter5. Qed.
Theorem C60_distribution_function5 : forall bnd int es ys, curve_ok bnd int es ys ->
  exists t, make_g5 bnd int es ys = Val t /\ keeps t bnd int es ys.
Proof. made make_g5. Qed.
Theorem C60_tabulated_multiplicity : forall bnd int es ys, curve_ok bnd int es ys ->
  exists t, make_tab_mult bnd int es ys = Val t /\ keeps t bnd int es ys.
Proof. made make_tab_mult. Qed.
Theorem C60_scattering_radius : forall bnd int es ys, curve_ok bnd int es ys ->
  exists t, make_radius bnd int es ys = Val t /\ keeps t bnd int es ys.
Proof. made make_radius. Qed.
Theorem C60_probability5 : forall lf u bnd int es ps, int32 lf -> curve_ok bnd int es ps ->
  exists t, make_probability5 lf u bnd int es ps = Val t /\ LFprob5 t = lf /\ U5 t = u /\ keeps t bnd int es ps.
Proof. unfold LFprob5, U5. made make_probability5. Qed.
Theorem C60_outgoing5 : forall incident bnd int es ps, curve_ok bnd int es ps ->
  exists t, make_outgoing5 incident bnd int es ps = Val t /\ Eout5 t = incident /\ keeps t bnd int es ps.
Proof. unfold Eout5. made make_outgoing5. Qed.
Theorem C60_madland_nix : forall efl efh bnd int es temps, curve_ok bnd int es temps ->
  exists t, make_madland efl efh bnd int es temps = Val t /\ EFL5 t = efl /\ EFH5 t = efh /\ keeps t bnd int es temps.
Proof. unfold EFL5, EFH5. made make_madland. Qed.
Theorem C60_tabulated4 : forall energy bnd int mus ps, curve_ok bnd int mus ps ->
  exists t, make_tabd4 energy bnd int mus ps = Val t /\ E_tab t = energy /\ keeps t bnd int mus ps.
Proof. unfold E_tab. made make_tabd4. Qed.
Theorem C60_energy_distribution7 : forall cosine bnd int es ps, curve_ok bnd int es ps ->
  exists t, make_energyd cosine bnd int es ps = Val t /\ MU7 t = cosine /\ keeps t bnd int es ps.
Proof. unfold MU7. made make_energyd. Qed.
Theorem C60_continuous_spectrum : forall chain bnd int es sp, curve_ok bnd int es sp ->
  exists t, make_continuous chain bnd int es sp = Val t /\ RTYPc t = chain /\ keeps t bnd int es sp.
Proof. unfold RTYPc. made make_continuous. Qed.
Theorem C60_discrete_photon : forall energy lph bnd int time ys, int32 lph -> curve_ok bnd int time ys ->
  exists t, make_photon energy lph bnd int time ys = Val t /\ E460 t = energy /\ LPH t = lph /\ keeps t bnd int time ys.
Proof. unfold E460, LPH. made make_photon. Qed.
(** multiplicities: the particle goes through a double and is rounded back *)
Lemma ZAP_back t zap : int32 zap -> tC1 (tbase t) = of_int zap -> ZAPm t = Val zap.
Proof.
  intros H E. unfold ZAPm. rewrite E. unfold int32 in H. rewrite round_of_int by lia. unfold in32.
  destruct (Z.leb_spec (-2147483648) zap); [|lia]. destruct (Z.ltb_spec zap 2147483648); [|lia]. reflexivity.
Qed.
(** the nearest integer, halves away from zero *)
Definition nearest (q : Q) (z : Z) : Prop :=
  ((0 <= q)%Q -> (inject_Z (2 * z - 1) <= 2 * q)%Q /\ (2 * q < inject_Z (2 * z + 1))%Q) /\ ((q <= 0)%Q -> (inject_Z (2 * z - 1) < 2 * q)%Q /\ (2 * q <= inject_Z (2 * z + 1))%Q).
Lemma nearest_fun q z w : nearest q z -> nearest q w -> z = w.
Proof.
  intros (A & B) (C & D). destruct (Qlt_le_dec 0 q) as [P|P].
  - destruct A as (A1 & A2); [now apply Qlt_le_weak|]. destruct C as (C1 & C2); [now apply Qlt_le_weak|].
    assert (E1 := Qle_lt_trans _ _ _ A1 C2). assert (E2 := Qle_lt_trans _ _ _ C1 A2). rewrite <- Zlt_Qlt in E1, E2. lia.
  - destruct (B P) as (A1 & A2). destruct (D P) as (C1 & C2).
    assert (E1 := Qlt_le_trans _ _ _ A1 C2). assert (E2 := Qlt_le_trans _ _ _ C1 A2). rewrite <- Zlt_Qlt in E1, E2. lia.
Qed.
Lemma nearest_div (s : bool) a b : 0 <= a -> 0 < b -> nearest ((if s then - a else a) # Z.to_pos b) (let q := (2 * a + b) / (2 * b) in if s then - q else q).
Proof.
  intros Ha Hb. cbv zeta. assert (D := Z.div_mod (2 * a + b) (2 * b) ltac:(lia)). assert (R := Z.mod_pos_bound (2 * a + b) (2 * b) ltac:(lia)).
  set (q := (2 * a + b) / (2 * b)) in *. set (r := (2 * a + b) mod (2 * b)) in *.
  unfold nearest, Qle, Qlt, Qmult, inject_Z. cbn [Qnum Qden]. rewrite Pos.mul_1_l, Z2Pos.id by lia. rewrite !Z.mul_1_r, Z.mul_0_l.
  assert (Q0 : a = 0 -> q = 0) by (intros ->; unfold q; apply Z.div_small; lia).
  destruct s; split; intros P; try (assert (a = 0) by lia; specialize (Q0 ltac:(assumption)); subst a; rewrite Q0 in *); split; nia.
Qed.
Lemma round_nearest r : 0 <= rman r -> nearest (valQ r) (round_int r).
Proof.
  intros M. assert (Pd : 0 < scd 2 1 (- rexp r)) by (apply scd_pos; lia). set (a := scn 2 (rman r) (- rexp r)). set (b := scd 2 1 (- rexp r)) in *.
  assert (A : 0 <= a) by (unfold a, scn; destruct (Z.ltb_spec (- rexp r) 0); [apply Z.mul_nonneg_nonneg; [exact M|apply Z.pow_nonneg; lia]|exact M]).
  assert (E : (valQ r == (if rneg r then - a else a) # Z.to_pos b)%Q).
  { assert (F := dec_frac (rman r) (rexp r)). fold a b in F. assert (F' := frac_mul a b Pd). unfold valQ, rsig. rewrite (Qmake_Qdiv _ (Z.to_pos b)), Z2Pos.id by lia.
    destruct (rneg r); [|symmetry; exact F]. rewrite !inject_Z_opp. transitivity (- (inject_Z (rman r) * bp 2 (rexp r)))%Q; [ring|]. rewrite <- F. unfold frac, Qdiv. ring. }
  unfold round_int. fold a b. cbv zeta. assert (N := nearest_div (rneg r) a b A Pd). cbv zeta in N. destruct N as [N1 N2]. split; intros P.
  - rewrite E in *. now apply N1.
  - rewrite E in *. now apply N2.
Qed.
(** the conversion used for ZA, ZAI, ZAP, XMF1 and XLFS1 *)
Theorem C57_rounded : forall r, 0 <= rman r -> nearest (valQ r) (round_int r).
Proof. exact round_nearest. Qed.
(** whatever table was read: the particle is the first value rounded to the nearest integer, and undefined if that is no int *)
Theorem C60_particle : forall t z, 0 <= rman (tC1 (tbase t)) -> nearest (valQ (tC1 (tbase t))) z -> (int32 z -> ZAPm t = Val z) /\ (~ int32 z -> ZAPm t = Undef).
Proof.
  intros t z M H. unfold ZAPm. rewrite (nearest_fun _ _ _ (round_nearest _ M) H). cbv zeta. unfold in32, int32.
  destruct (Z.leb_spec (-2147483648) z); destruct (Z.ltb_spec z 2147483648); cbn [andb]; split; intros K; try reflexivity; lia.
Qed.
(** looking a product up by its identifier, the first value of its record rounded to the nearest integer: the products are searched in order; the first with the
    identifier is given, it throws if there is none, and it is undefined if an identifier that is no int comes first *)
Definition identifier {L} (p : product L) (z : Z) : Prop := nearest (valQ (tC1 (tbase (p_mult p)))) z.
Definition another {L} (zap : Z) (p : product L) : Prop := exists z, identifier p z /\ int32 z /\ z <> zap.
Theorem C49_lookup : forall L zap (ps : list (product L)), int32 zap -> Forall (fun p => 0 <= rman (tC1 (tbase (p_mult p)))) ps ->
  (forall p, get_product zap ps = Val p <-> exists a b, ps = a ++ p :: b /\ Forall (another zap) a /\ identifier p zap)
  /\ (get_product zap ps = Throw EStd <-> Forall (another zap) ps)
  /\ (get_product zap ps = Undef <-> exists a p b z, ps = a ++ p :: b /\ Forall (another zap) a /\ identifier p z /\ ~ int32 z)
  /\ (has_product zap ps = Val true <-> exists p, get_product zap ps = Val p)
  /\ (has_product zap ps = Val false <-> get_product zap ps = Throw EStd)
  /\ (has_product zap ps = Undef <-> get_product zap ps = Undef).
Proof.
  intros L zap ps Hz. unfold has_product, get_product. induction ps as [|q ps IH]; intros F.
  { cbn. split; [intros p; split; [discriminate|intros (a & b & E & _); destruct a; discriminate]|].
    split; [split; [intros _; constructor|reflexivity]|]. split; [split; [discriminate|intros (a & p & b & z & E & _); destruct a; discriminate]|].
    split; [split; [discriminate|intros (p & E); discriminate]|]. split; [split; reflexivity|split; discriminate]. }
  apply Forall_cons_iff in F as (M & F). specialize (IH F). cbn [find_product].
  pose proof (round_nearest _ M) as N. set (w := round_int (tC1 (tbase (p_mult q)))) in *.
  assert (U : forall z, identifier q z -> z = w) by (intros z Hq; exact (nearest_fun _ _ _ Hq N)).
  assert (C : (int32 w /\ ZAP (p_mult q) = Val w) \/ (~ int32 w /\ ZAP (p_mult q) = Undef)).
  { unfold ZAP. fold w. cbv zeta. unfold int32. destruct (Z.leb_spec (-2147483648) w); destruct (Z.ltb_spec w 2147483648); cbn [andb]; [left; split; [lia|reflexivity]|right; split; [lia|reflexivity]..]. }
  destruct C as [(Hw & ->)|(Hw & ->)]; cbn [obind].
  - destruct (Z.eqb_spec w zap) as [E|E]; cbn [obind].
    + assert (NA : ~ another zap q) by (intros (z & A & _ & B); apply U in A; congruence). split.
      { intros p. split.
        - intros [= <-]. exists [], ps. split; [reflexivity|]. split; [constructor|]. rewrite <- E. exact N.
        - intros (a & b & E' & Fa & _). destruct a as [|x a]; [now injection E' as <- _|]. injection E' as <- _. apply Forall_cons_iff in Fa. tauto. }
      split. { split; [discriminate|]. intros G. apply Forall_cons_iff in G. tauto. }
      split. { split; [discriminate|]. intros (a & p & b & z & E' & Fa & I' & J). destruct a as [|x a]; injection E' as <- _; [apply U in I'; congruence|apply Forall_cons_iff in Fa; tauto]. }
      split; [split; [eauto|reflexivity]|]. split; split; discriminate.
    + assert (A : another zap q) by (exists w; auto). destruct IH as (I1 & I2 & I3 & I4 & I5 & I6).
      split. { intros p. rewrite I1. split.
        - intros (a & b & -> & Fa & I'). exists (q :: a), b. auto.
        - intros (a & b & E' & Fa & I'). destruct a as [|x a]; [injection E' as <- _; apply U in I'; congruence|]. injection E' as <- ->. apply Forall_cons_iff in Fa. exists a, b. tauto. }
      split. { rewrite I2, Forall_cons_iff. tauto. }
      split. { rewrite I3. split.
        - intros (a & p & b & z & -> & Fa & I'). exists (q :: a), p, b, z. auto.
        - intros (a & p & b & z & E' & Fa & I' & J). destruct a as [|x a]; [injection E' as <- _; apply U in I'; congruence|]. injection E' as <- ->. apply Forall_cons_iff in Fa. exists a, p, b, z. tauto. }
      auto.
  - assert (NA : ~ another zap q) by (intros (z & A & B & _); apply U in A; congruence). split.
    { intros p. split; [discriminate|]. intros (a & b & E' & Fa & I'). destruct a as [|x a]; injection E' as <- _; [apply U in I'; congruence|apply Forall_cons_iff in Fa; tauto]. }
    split. { split; [discriminate|]. intros G. apply Forall_cons_iff in G. tauto. }
    split. { split; [|reflexivity]. intros _. exists [], q, ps, w. auto. }
    split; [split; [discriminate|intros (p & E); discriminate]|]. split; [split; discriminate|split; reflexivity].
Qed.
Definition xproduct (c : real) (n : nat) : product nat := mkproduct (mktab1 (mktab2 c rzero 0 0 [] []) [] []) n.
Example C49_example_lookup : let ps := [xproduct (of_int 1001) 0; xproduct (of_int 1) 1; xproduct (of_int 1) 2; xproduct (of_int (10 ^ 10)) 3; xproduct (of_int 2004) 4] in
  Forall (fun p => 0 <= rman (tC1 (tbase (p_mult p)))) ps /\ get_product 1 ps = Val (xproduct (of_int 1) 1) /\ get_product 2004 ps = Undef /\ has_product 1001 ps = Val true
  /\ get_product 2 (firstn 3 ps) = Throw EStd.
Proof. cbv zeta. split; [repeat constructor; vm_compute; discriminate|]. repeat split; reflexivity. Qed.
Example C60_example_particle : nearest (valQ (mkreal true 5 (-1))) (-3) /\ nearest (valQ (mkreal false 9 (-2))) 2.
Proof. split; split; intros H; vm_compute in H |- *; split; congruence || (exfalso; now apply H). Qed.
Theorem C60_multiplicity6 : forall zap awp lip law bnd int es ys, int32 zap -> int32 lip -> int32 law -> curve_ok bnd int es ys ->
  exists t, make_mult6 zap awp lip law bnd int es ys = Val t /\ ZAPm t = Val zap /\ AWPm t = awp /\ LIPm t = lip /\ LAWm t = law /\ keeps t bnd int es ys.
Proof.
  intros. unfold make_mult6. rewrite make_tab1_ok by assumption. eexists. split; [reflexivity|]. split; [now apply ZAP_back|].
  unfold AWPm, LIPm, LAWm. cbn [tbase tC2 tL1 tL2]. rewrite !i32_in by assumption. repeat (split; [reflexivity|]). now apply keeps_made.
Qed.
Theorem C60_multiplicity26 : forall zap awi law bnd int es ys, int32 zap -> int32 law -> curve_ok bnd int es ys ->
  exists t, make_mult26 zap awi law bnd int es ys = Val t /\ ZAPm t = Val zap /\ AWPm t = awi /\ LAWm t = law /\ keeps t bnd int es ys.
Proof.
  intros. unfold make_mult26. rewrite make_tab1_ok by assumption. eexists. split; [reflexivity|]. split; [now apply ZAP_back|].
  unfold AWPm, LAWm. cbn [tbase tC2 tL1 tL2]. rewrite !i32_in by assumption. repeat (split; [reflexivity|]). now apply keeps_made.
Qed.
(** the components of the energy release: exactly the nine indices *)
Theorem C60_energy_release : forall (ldrv : bool) ifc bnd int es qs, curve_ok bnd int es qs -> int32 ifc ->
  (1 <= ifc <= 9 -> exists t, make_component ldrv ifc bnd int es qs = Val t /\ LDRV t = ldrv /\ IFC t = ifc /\ keeps t bnd int es qs)
  /\ (~ 1 <= ifc <= 9 -> make_component ldrv ifc bnd int es qs = Throw EStd).
Proof.
  intros ldrv ifc bnd int es qs H Hi. unfold make_component. rewrite make_tab1_ok by assumption. cbn [obind]. unfold component_ok. cbn [tbase tL1 tL2]. cbv zeta. rewrite (i32_in ifc Hi).
  rewrite i32_in by (destruct ldrv; unfold int32; lia). replace (((if ldrv then 2 else 1) =? 1) || ((if ldrv then 2 else 1) =? 2)) with true by (destruct ldrv; reflexivity). cbn [andb]. split; intros K.
  - destruct (Z.leb_spec 1 ifc); [|lia]. destruct (Z.leb_spec ifc 9); [|lia]. cbn [andb]. eexists. split; [reflexivity|]. unfold LDRV, IFC. cbn [tbase tL1 tL2]. rewrite i32_in by assumption.
    split; [destruct ldrv; reflexivity|]. split; [reflexivity|]. now apply keeps_made.
  - destruct (Z.leb_spec 1 ifc); cbn [andb]; [|reflexivity]. destruct (Z.leb_spec ifc 9); [lia|reflexivity].
Qed.

(** ** the record on the tape *)
(** the first line of a printed table: these four values, then the number of regions and the number of points *)
Definition opens (t : tab1) (C1 C2 : real) (L1 L2 : Z) : Prop := forall mat mf mt, exists rest,
  pr_tab1 t mat mf mt = pr_cont (mkcont C1 C2 L1 L2 (len (boundaries t)) (len (tx t))) mat mf mt ++ rest.
(** every constructor of a table, as a function of the curve, and what its record carries: the
    values that have no name are zero *)
Inductive table_constructor : (list Z -> list Z -> list real -> list real -> out tab1) -> real -> real -> Z -> Z -> Prop :=
| tc_3 qm qi lr : table_constructor (make_table3 qm qi lr) qm qi 0 lr
| tc_23 epe efl : table_constructor (make_table23 epe efl) epe efl 0 0
| tc_27 z r : 0 <= r < 1000 -> 0 <= z -> table_constructor (make_table27 (z * 1000 + r)) rzero (of_int z) 0 0
| tc_9 qm qi izap lfs : table_constructor (make_product9 qm qi izap lfs) qm qi izap lfs
| tc_10 qm qi izap lfs : table_constructor (make_product10 qm qi izap lfs) qm qi izap lfs
| tc_12 e l lp law : table_constructor (make_partial12 e l lp law) e l lp law
| tc_13 e l lp law : table_constructor (make_partial13 e l lp law) e l lp law
| tc_total12 : table_constructor make_total12 rzero rzero 0 0
| tc_total13 : table_constructor make_total13 rzero rzero 0 0
| tc_transfer : table_constructor make_transfer rzero rzero 0 0
| tc_theta : table_constructor make_theta5 rzero rzero 0 0
| tc_parameter : table_constructor make_parameter5 rzero rzero 0 0
| tc_g : table_constructor make_g5 rzero rzero 0 0
| tc_tab_mult : table_constructor make_tab_mult rzero rzero 0 0
| tc_radius : table_constructor make_radius rzero rzero 0 0
| tc_mult6 zap awp lip law : table_constructor (make_mult6 zap awp lip law) (of_int zap) awp lip law
| tc_mult26 zap awi law : table_constructor (make_mult26 zap awi law) (of_int zap) awi 0 law
| tc_probability lf u : table_constructor (make_probability5 lf u) u rzero 0 lf
| tc_outgoing e : table_constructor (make_outgoing5 e) rzero e 0 0
| tc_madland efl efh : table_constructor (make_madland efl efh) efl efh 0 0
| tc_tabd e : table_constructor (make_tabd4 e) rzero e 0 0
| tc_energyd mu : table_constructor (make_energyd mu) rzero mu 0 0
| tc_continuous c : table_constructor (make_continuous c) c rzero 0 0
| tc_photon e lph : table_constructor (make_photon e lph) e rzero lph 0
| tc_component ldrv ifc : 1 <= ifc <= 9 -> table_constructor (make_component ldrv ifc) rzero rzero (if ldrv then 2 else 1) ifc
| tc_incoherent sb : table_constructor (make_incoherent sb) sb rzero 0 0
| tc_temperature : table_constructor make_temperature rzero rzero 0 0.
(** it accepts exactly the valid curves and throws std::exception for any other; the record opens with the values given *)
Theorem C60_table_exactly : forall f C1 C2 L1 L2, table_constructor f C1 C2 L1 L2 -> forall bnd int x y, bnd <> [] -> 0 <= last bnd 0 < 2 ^ 31 -> len x < 2 ^ 31 ->
  (curve_ok bnd int x y -> exists t, f bnd int x y = Val t /\ opens t C1 C2 L1 L2 /\ tells t bnd int x y) /\ (~ curve_ok bnd int x y -> f bnd int x y = Throw EStd).
Proof.
  intros f C1 C2 L1 L2 F bnd int x y N B L.
  assert (O : forall C1 C2 L1 L2, curve_ok bnd int x y -> opens (mktab1 (mktab2 C1 C2 L1 L2 bnd int) x y) C1 C2 L1 L2 /\ tells (mktab1 (mktab2 C1 C2 L1 L2 bnd int) x y) bnd int x y).
  { intros. split; [|repeat split]. intros mat mf mt. unfold pr_tab1, pr_tab2. cbn [tbase tC1 tC2 tL1 tL2 tx ty]. rewrite <- app_assoc. eexists. f_equal. f_equal. f_equal.
    unfold tn2. cbn [tbnd]. now destruct H as (_ & _ & _ & _ & _ & _ & _ & H). }
  assert (G : forall C1 C2 L1 L2, (curve_ok bnd int x y -> exists t, make_tab1 C1 C2 L1 L2 bnd int x y = Val t /\ opens t C1 C2 L1 L2 /\ tells t bnd int x y)
    /\ (~ curve_ok bnd int x y -> make_tab1 C1 C2 L1 L2 bnd int x y = Throw EStd)).
  { clear F C1 C2 L1 L2. intros. split; intros K.
    - eexists. split; [now apply make_tab1_ok|]. now apply O.
    - destruct (C35_tab1_constructor_exact C1 C2 L1 L2 bnd int x y N ltac:(lia) ltac:(unfold len in L; lia)) as (E & [V|V]); [|exact V].
      exfalso. apply K. apply E in V. unfold curve_ok. unfold len in *. intuition. }
  destruct F as [ | | z r Hr Hz | | | | | | | | | | | | | | | | | | | | | |ldrv ifc Hi| | ]; try apply G.
  - unfold make_table27. replace (Z.quot (z * 1000 + r) 1000) with z; [apply G|]. rewrite Z.quot_div_nonneg by lia. apply (Z.div_unique _ _ _ r); lia.
  - unfold make_component. destruct (G rzero rzero (if ldrv then 2 else 1) ifc) as [G1 G2]. split; intros K.
    + rewrite make_tab1_ok by exact K. cbn [obind]. unfold component_ok. cbn [tbase tL1 tL2]. cbv zeta. rewrite (i32_in ifc) by (unfold int32; lia).
      rewrite i32_in by (destruct ldrv; unfold int32; lia). destruct (Z.leb_spec 1 ifc); [|lia]. destruct (Z.leb_spec ifc 9); [|lia]. destruct ldrv; (eexists; split; [reflexivity|now apply O]).
    + now rewrite (G2 K).
Qed.
(** one region over the whole table; the interpolant is 2 when it is not given *)
Theorem C60_one_region : forall f, f = make_product9_one \/ f = make_product10_one -> forall qm qi izap lfs es ys interpolant, int32 izap -> int32 lfs ->
  0 < len es < 2 ^ 31 -> length es = length ys -> ascending real_le es ->
  exists t, f qm qi izap lfs es ys interpolant = Val t /\ QMp t = qm /\ QIp t = qi /\ IZAPp t = izap /\ LFSp t = lfs /\ keeps t [len es] [interpolant] es ys.
Proof.
  intros f Hf qm qi izap lfs es ys interpolant Hz Hl Hn L A. assert (K : curve_ok [len es] [interpolant] es ys).
  { unfold curve_ok. cbn [last]. split; [discriminate|]. split; [lia|]. split; [lia|]. split; [exact L|]. split; [exact A|]. split; [reflexivity|]. split; [cbn; auto|reflexivity]. }
  destruct Hf as [->| ->]; [apply C60_product9|apply C60_product10]; auto.
Qed.
Example C60_example_table : curve_ok [2; 3] [2; 5] [r_tiny; r_one; r_pi] [r_one; r_pi; r_one] /\ ~ curve_ok [2; 4] [2; 5] [r_tiny; r_one; r_pi] [r_one; r_pi; r_one]
  /\ rep_tab1 (mktab1 (mktab2 r_pi r_one 2004 3 [2; 3] [2; 5]) [r_tiny; r_one; r_pi] [r_one; r_pi; r_one]).
Proof.
  split; [|split].
  - unfold curve_ok, len. split; [discriminate|]. split; [cbn; lia|]. split; [cbn; lia|]. split; [reflexivity|]. split; [apply sorted_R; reflexivity|]. split; [reflexivity|]. split; [apply sorted_Z; reflexivity|reflexivity].
  - intros (_ & _ & _ & _ & _ & _ & _ & H). discriminate H.
  - unfold rep_tab1, rep_tab2. cbn [tbase tC1 tC2 tL1 tL2 tbnd tint tx ty]. xt.
Qed.

(** ** sequences *)
(** the interpolation table fits n records *)
Definition seq_ok (bnd int : list Z) (n : Z) : Prop :=
  bnd <> [] /\ 0 < n < 2 ^ 31 /\ length bnd = length int /\ ascending Z.le bnd /\ last bnd 0 = n.
Definition tells_seq {C} (q : iseq C) (bnd int : list Z) (ds : list C) : Prop :=
  tbnd (istab q) = bnd /\ tint (istab q) = int /\ isrec q = ds /\ tnr (istab q) = len bnd /\ tn2 (istab q) = len ds.
Lemma seq_made {C} C1 C2 L1 L2 bnd int (ds : list C) : seq_ok bnd int (len ds) ->
  obind (make_tab2 C1 C2 L1 L2 bnd int) (fun t => make_iseq no_more t ds) = Val (mkiseq (mktab2 C1 C2 L1 L2 bnd int) ds).
Proof.
  intros (N & R & L & A & E). rewrite make_tab2_ok; [|exact N|exact L|now apply sorted_Z]. cbn [obind]. unfold make_iseq, tn2. cbn [tbnd]. cbv zeta. rewrite E. unfold len in *.
  rewrite !u32_id by lia. destruct (Z.eqb_spec (Z.of_nat (length ds)) 0); [lia|]. rewrite Z.eqb_refl. reflexivity.
Qed.
Lemma seq_refused {C} C1 C2 L1 L2 bnd int (ds : list C) : bnd <> [] -> 0 <= last bnd 0 < 2 ^ 31 -> len ds < 2 ^ 31 -> ~ seq_ok bnd int (len ds) ->
  obind (make_tab2 C1 C2 L1 L2 bnd int) (fun t => make_iseq no_more t ds) = Throw EStd.
Proof.
  intros N B H K. unfold make_tab2. destruct bnd as [|b0 bs]; [congruence|]. set (bnd := b0 :: bs) in *.
  destruct (Nat.eqb_spec (length bnd) (length int)) as [E1|E1]; cbn [negb obind]; [|reflexivity]. destruct (is_sorted Z.ltb bnd) eqn:E2; cbn [negb obind]; [|reflexivity].
  unfold make_iseq, tn2. cbn [tbnd]. cbv zeta. unfold len in *. rewrite !u32_id by lia. destruct (Z.eqb_spec (Z.of_nat (length ds)) 0) as [E3|E3]; [reflexivity|].
  destruct (Z.eqb_spec (last bnd 0) (Z.of_nat (length ds))) as [E4|E4]; cbn [negb]; [|reflexivity]. exfalso. apply K. repeat split; auto; try lia. now apply sorted_Z.
Qed.
Lemma told {C} C1 C2 L1 L2 bnd int (ds : list C) : seq_ok bnd int (len ds) -> tells_seq (mkiseq (mktab2 C1 C2 L1 L2 bnd int) ds) bnd int ds.
Proof. intros (_ & _ & _ & _ & E). repeat split. exact E. Qed.
(** the first line of the printed sequence *)
Definition opens_seq {C} (q : iseq C) (C1 C2 : real) (L1 L2 : Z) : Prop := forall mat mf mt, exists rest,
  pr_tab2 (istab q) mat mf mt = pr_cont (mkcont C1 C2 L1 L2 (len (tbnd (istab q))) (len (isrec q))) mat mf mt ++ rest.
Lemma opened {C} C1 C2 L1 L2 bnd int (ds : list C) : seq_ok bnd int (len ds) -> opens_seq (mkiseq (mktab2 C1 C2 L1 L2 bnd int) ds) C1 C2 L1 L2.
Proof. intros (_ & _ & _ & _ & E) mat mf mt. unfold pr_tab2. cbn [istab isrec tC1 tC2 tL1 tL2]. unfold tn2. cbn [tbnd]. rewrite E. eexists. reflexivity. Qed.
(** boundaries and interpolants are exchanged twice on the way, so that they arrive where they should *)
Theorem C60_angular4 : forall C bnd int (ds : list C), seq_ok bnd int (len ds) -> exists q, make_dists4 bnd int ds = Val q /\ tells_seq q bnd int ds.
Proof. intros. unfold make_dists4, make_angular. rewrite seq_made by assumption. eexists. split; [reflexivity|]. now apply told. Qed.
(** the energies of the photon and the level go to the record (what the accessors make of them: C53) *)
Theorem C60_angular14 : forall C energy level bnd int (ds : list C), seq_ok bnd int (len ds) ->
  exists q, make_dists14 energy level bnd int ds = Val q /\ tC1 (istab q) = energy /\ tC2 (istab q) = level /\ tells_seq q bnd int ds.
Proof. intros. unfold make_dists14, make_angular. rewrite seq_made by assumption. eexists. split; [reflexivity|]. do 2 (split; [reflexivity|]). now apply told. Qed.
(** AngularDistributions itself, called with the names of its own arguments, exchanges them *)
Theorem C60_angular_base_refuted : exists bnd int (ds : list listr), seq_ok bnd int (len ds) /\ make_angular bnd int ds rzero rzero = Throw EStd
  /\ exists q, make_angular int bnd ds rzero rzero = Val q.
Proof.
  exists [2], [1], [mklist rzero rzero 0 0 0 [r_one]; mklist rzero r_one 0 0 0 [r_one]]. split; [|split; [vm_compute; reflexivity|eexists; vm_compute; reflexivity]].
  unfold seq_ok, len. split; [discriminate|]. split; [cbn; lia|]. split; [reflexivity|]. split; [apply sorted_Z; reflexivity|reflexivity].
Qed.
Theorem C60_spectrum5 : forall bnd int ds, seq_ok bnd int (len ds) -> exists q, make_spectrum5 bnd int ds = Val q /\ incidentEnergies5 q = map Eout5 ds /\ tells_seq q bnd int ds.
Proof. intros. unfold make_spectrum5. rewrite seq_made by assumption. eexists. split; [reflexivity|]. split; [reflexivity|]. now apply told. Qed.
Theorem C60_angular7 : forall energy bnd int ds, seq_ok bnd int (len ds) ->
  exists q, make_angulard energy bnd int ds = Val q /\ Eang7 q = energy /\ MUs7 q = map MU7 ds /\ tells_seq q bnd int ds.
Proof. intros. unfold make_angulard. rewrite seq_made by assumption. eexists. split; [reflexivity|]. do 2 (split; [reflexivity|]). now apply told. Qed.
Theorem C60_laboratory7 : forall bnd int ds, seq_ok bnd int (len ds) -> exists q, make_law7 bnd int ds = Val q /\ Es7 q = map Eang7 ds /\ tells_seq q bnd int ds.
Proof. intros. unfold make_law7. rewrite seq_made by assumption. eexists. split; [reflexivity|]. split; [reflexivity|]. now apply told. Qed.
Theorem C60_two_body : forall bnd int ds, seq_ok bnd int (len ds) -> exists q, make_law2 bnd int ds = Val q /\ Es6 q = map lC2 ds /\ tells_seq q bnd int ds.
Proof. intros. unfold make_law2. rewrite seq_made by assumption. eexists. split; [reflexivity|]. split; [reflexivity|]. now apply told. Qed.
Theorem C60_charged : forall spin lidp bnd int ds, lidp = 0 \/ lidp = 1 -> seq_ok bnd int (len ds) ->
  exists q, make_law5 spin lidp bnd int ds = Val q /\ SPI5 q = spin /\ (LIDP5 q = true <-> lidp = 1) /\ Es6 q = map lC2 ds /\ tells_seq q bnd int ds.
Proof.
  intros spin lidp bnd int ds Hl H. unfold make_law5. rewrite seq_made by assumption. eexists. split; [reflexivity|]. split; [reflexivity|]. split; [|split; [reflexivity|now apply told]].
  unfold LIDP5. cbn [istab tL1]. destruct Hl as [->| ->]; cbn; split; congruence.
Qed.
(** a flag that was read counts as set unless it is zero *)
Theorem C60_charged_flag : forall c1 lidp bnd int x ds, LIDP5 (mkiseq (mktab2 c1 x lidp 0 bnd int) ds) = false <-> lidp = 0.
Proof. intros. unfold LIDP5. cbn [istab tL1]. lia. Qed.
(** continuum distributions: all of one kind, whose number becomes LANG *)
Theorem C60_continuum : forall lep lang bnd int ds, int32 lep -> int32 lang -> seq_ok bnd int (len ds) -> Forall (fun d => fst d = lang) ds ->
  exists q, make_law1 lep bnd int ds = Val q /\ LANGq q = lang /\ LEPq q = lep /\ Es6 q = map (fun d => lC2 (snd d)) ds /\ opens_seq q rzero rzero lang lep /\ tells_seq q bnd int (map snd ds).
Proof.
  intros lep lang bnd int ds He Hl H F. assert (H' : seq_ok bnd int (len (map snd ds))) by (unfold len in *; now rewrite map_length). unfold make_law1. destruct ds as [|[lg d] ds]; [destruct H as (_ & H & _); unfold len in H; cbn in H; lia|].
  assert (lg = lang) by now inversion F. subst lg. cbv beta iota zeta. pose proof (seq_made rzero rzero lang lep bnd int _ H') as E.
  destruct (make_tab2 _ _ _ _ _ _) as [t| |]; [|discriminate E..]. cbn [obind] in *. rewrite E. cbn [obind].
  destruct (forallb _ _) eqn:Ef.
  - eexists. split; [reflexivity|]. unfold LANGq, LEPq, Es6. cbn [istab tL1 tL2 isrec]. rewrite !i32_in by assumption. do 2 (split; [reflexivity|]). split; [now rewrite map_map|]. split; [now apply opened|now apply told].
  - exfalso. rewrite <- Bool.not_true_iff_false in Ef. apply Ef. apply forallb_forall. intros x Hx. rewrite Forall_forall in F. rewrite (F x Hx), i32_in by assumption. apply Z.eqb_refl.
Qed.
Theorem C60_continuum_mixed : forall lep bnd int lang d ds, int32 lang -> seq_ok bnd int (len ((lang, d) :: ds)) -> ~ Forall (fun e => fst e = lang) ds ->
  make_law1 lep bnd int ((lang, d) :: ds) = Throw EStd.
Proof.
  intros lep bnd int lang d ds Hl H F. assert (H' : seq_ok bnd int (len (map snd ((lang, d) :: ds)))) by (unfold len in *; now rewrite map_length). unfold make_law1.
  pose proof (seq_made rzero rzero lang lep bnd int _ H') as E. destruct (make_tab2 _ _ _ _ _ _) as [t| |]; [|discriminate E..]. cbn [obind] in *. rewrite E. cbn [obind].
  destruct (forallb _ _) eqn:Ef; [|reflexivity]. exfalso. apply F. cbn [forallb] in Ef. apply andb_prop in Ef. destruct Ef as [_ Ef]. rewrite forallb_forall in Ef. apply Forall_forall. intros x Hx. specialize (Ef x Hx). rewrite i32_in in Ef by assumption. lia.
Qed.
(** ... and the distribution that is looked at first must exist *)
Theorem C60_continuum_empty_refuted : forall lep bnd int, make_law1 lep bnd int [] = Undef /\ make_law1_26 lep bnd int [] = Undef.
Proof. split; reflexivity. Qed.
Theorem C60_continuum26 : forall lep bnd int ds, int32 lep -> seq_ok bnd int (len ds) ->
  exists q, make_law1_26 lep bnd int ds = Val q /\ LANGq q = 1 /\ LEPq q = lep /\ Es6 q = map lC2 ds /\ opens_seq q rzero rzero 1 lep /\ tells_seq q bnd int ds.
Proof.
  intros lep bnd int ds He H. unfold make_law1_26. destruct (C60_continuum lep 1 bnd int (map (pair 1) ds)) as (q & E & A & B & D & O & K); auto.
  - unfold int32; lia.
  - unfold len in *. now rewrite map_length.
  - apply Forall_forall. intros x Hx. apply in_map_iff in Hx. destruct Hx as (y & <- & _). reflexivity.
  - exists q. rewrite map_map in D, K. cbn [snd] in D, K. rewrite map_id in K. tauto.
Qed.
(** decay constants that depend on the energy: the same number of families everywhere *)
Theorem C60_decay_constants : forall bnd int l ds, seq_ok bnd int (len (l :: ds)) ->
  (Forall (fun d => families d = families l) ds -> exists q, make_dependent bnd int (l :: ds) = Val q /\ NNFd q = Val (families l) /\ Es6 q = map lC2 (l :: ds) /\ opens_seq q rzero rzero 0 0 /\ tells_seq q bnd int (l :: ds))
  /\ (~ Forall (fun d => families d = families l) ds -> make_dependent bnd int (l :: ds) = Throw EStd).
Proof.
  intros bnd int l ds H. unfold make_dependent. pose proof (seq_made rzero rzero 0 0 bnd int _ H) as E. destruct (make_tab2 _ _ _ _ _ _) as [t| |]; [|discriminate E..]. cbn [obind] in *. rewrite E. cbn [obind].
  assert (S : same_nnf (l :: ds) = true <-> Forall (fun d => families d = families l) ds).
  { change families with nnf. cbn [same_nnf forallb]. rewrite Z.eqb_refl. cbn [andb]. rewrite forallb_forall, Forall_forall. split; intros K x Hx; specialize (K x Hx); lia. }
  split; intros K.
  - rewrite (proj2 S K). eexists. split; [reflexivity|]. do 2 (split; [reflexivity|]). split; [now apply opened|now apply told].
  - destruct (same_nnf (l :: ds)) eqn:Es; [|reflexivity]. destruct K. now apply S.
Qed.
(** every constructor of a plain sequence, and what its first record carries *)
Inductive sequence_constructor : forall C, (list Z -> list Z -> list C -> out (iseq C)) -> real -> real -> Z -> Z -> Prop :=
| sc_4 C : sequence_constructor C make_dists4 rzero rzero 0 0
| sc_14 C e l : sequence_constructor C (make_dists14 e l) e l 0 0
| sc_5 : sequence_constructor tab1 make_spectrum5 rzero rzero 0 0
| sc_7a e : sequence_constructor tab1 (make_angulard e) rzero e 0 0
| sc_2 : sequence_constructor listr make_law2 rzero rzero 0 0
| sc_5l s l : sequence_constructor listr (make_law5 s l) s rzero l 0
| sc_7 : sequence_constructor (iseq tab1) make_law7 rzero rzero 0 0.
(** it accepts exactly the tables that fit the number of records *)
Theorem C60_sequence_exactly : forall C f C1 C2 L1 L2, sequence_constructor C f C1 C2 L1 L2 -> forall bnd int ds, bnd <> [] -> 0 <= last bnd 0 < 2 ^ 31 -> len ds < 2 ^ 31 ->
  (seq_ok bnd int (len ds) -> exists q, f bnd int ds = Val q /\ opens_seq q C1 C2 L1 L2 /\ tells_seq q bnd int ds) /\ (~ seq_ok bnd int (len ds) -> f bnd int ds = Throw EStd).
Proof.
  assert (G : forall C C1 C2 L1 L2 bnd int (ds : list C), bnd <> [] -> 0 <= last bnd 0 < 2 ^ 31 -> len ds < 2 ^ 31 ->
    (seq_ok bnd int (len ds) -> exists q, obind (make_tab2 C1 C2 L1 L2 bnd int) (fun t => make_iseq no_more t ds) = Val q /\ opens_seq q C1 C2 L1 L2 /\ tells_seq q bnd int ds)
    /\ (~ seq_ok bnd int (len ds) -> obind (make_tab2 C1 C2 L1 L2 bnd int) (fun t => make_iseq no_more t ds) = Throw EStd)).
  { intros C C1 C2 L1 L2 bnd int ds N B H. split; intros K; [|now apply seq_refused]. eexists. split; [now apply seq_made|]. split; [now apply opened|now apply told]. }
  intros C f C1 C2 L1 L2 F bnd int ds. destruct F; apply G.
Qed.
Example C60_example_sequence : seq_ok [2; 3] [2; 4] 3 /\ ~ seq_ok [2; 4] [2; 4] 3.
Proof.
  split; [|intros (_ & _ & _ & _ & H); discriminate H]. unfold seq_ok. split; [discriminate|]. split; [lia|]. split; [reflexivity|]. split; [apply sorted_Z; reflexivity|reflexivity].
Qed.

(** ** lists and control records *)
Theorem C60_lists : forall energy cs, len cs < 2 ^ 31 ->
  E_leg (make_coefficients4 energy cs) = energy /\ NL4 (make_coefficients4 energy cs) = len cs /\ lB (make_coefficients4 energy cs) = cs
  /\ NCO (make_polynomial cs) = len cs /\ lB (make_polynomial cs) = cs /\ NNFi (make_independent cs) = len cs /\ lB (make_independent cs) = cs
  /\ (cs <> [] -> exists l, make_continuous_photons cs = Val l /\ NNFi l = len cs /\ lB l = cs) /\ make_continuous_photons [] = Throw EStd.
Proof.
  intros energy cs H. assert (Hi : i32 (Z.of_nat (length cs)) = len cs) by (unfold len in *; apply RecordRT.i32_small; lia).
  unfold NL4, NCO, NNFi, npl, make_coefficients4, make_polynomial, make_independent. cbn [lB]. repeat (split; [first [reflexivity|exact Hi]|]). split; [|reflexivity].
  intros N. unfold make_continuous_photons. unfold npl. cbn [lB]. cbv zeta. rewrite Hi. destruct (Z.eqb_spec (len cs) 0) as [E|E].
  - destruct cs; [congruence|]. unfold len in E. cbn in E. lia.
  - eexists. split; [reflexivity|]. cbn [lB]. split; [exact Hi|reflexivity].
Qed.
(** the record that is printed: the numbers without a name are zero *)
Theorem C60_list_records : forall energy cs mat mf mt, exists r1 r2 r3,
  pr_list (make_coefficients4 energy cs) mat mf mt = pr_cont (mkcont rzero energy 0 0 (len cs) 0) mat mf mt ++ r1
  /\ pr_list (make_polynomial cs) mat mf mt = pr_cont (mkcont rzero rzero 0 0 (len cs) 0) mat mf mt ++ r2
  /\ pr_list (make_independent cs) mat mf mt = pr_cont (mkcont rzero rzero 0 0 (len cs) 0) mat mf mt ++ r3
  /\ forall l, make_continuous_photons cs = Val l -> exists r4, pr_list l mat mf mt = pr_cont (mkcont rzero rzero 0 0 (len cs) 0) mat mf mt ++ r4.
Proof.
  intros. do 3 eexists. split; [reflexivity|]. split; [reflexivity|]. split; [reflexivity|]. intros l H. unfold make_continuous_photons in H. cbv zeta in H.
  destruct (_ =? 0); [discriminate|]. injection H as <-. eexists. reflexivity.
Qed.
Theorem C60_phase_space : forall apsx npsx, int32 npsx -> APSX (make_nbody apsx npsx) = apsx /\ NPSX (make_nbody apsx npsx) = npsx
  /\ forall mat mf mt, pr_cont (make_nbody apsx npsx) mat mf mt = pr_cont (mkcont apsx rzero 0 0 0 npsx) mat mf mt.
Proof. intros apsx npsx H. split; [reflexivity|]. split; [|reflexivity]. unfold NPSX. cbn. now apply i32_in. Qed.

(** ** sections *)
(** the section prints, and reading the text gives the section again *)
Definition section_survives {B} (k : skind B) (x : sect B) : Prop := forall mat, 0 < mat < 10000 ->
  exists t, pr_section k x mat (k_mf k) = Val t /\ forall rest ln, exists ln', parse_section k mat (mkst (t ++ rest) ln) = Ok x (mkst rest ln').
Lemma section_again {B} (k : skind B) rep inv x : section_codec k rep inv -> good_ids x -> good_number k x -> rep (s_body x) -> inv (s_body x) -> section_survives k x.
Proof.
  intros [K _] G N R V mat H. destruct (sc_round_trip _ _ _ K x mat H G N R V) as (body & E & _ & P). eexists. split; [exact E|]. intros rest ln. eexists. apply P.
Qed.
Lemma ids_ok wmt za awr mt : 0 < za -> real_le rzero awr -> 0 < mt -> make_section wmt za awr mt tt = Val (mksect za awr mt tt).
Proof.
  intros A B C. unfold make_section. destruct (Z.ltb_spec za 1); [lia|]. cbn [orb]. assert (E : rlt awr rzero = false) by (unfold rlt; now rewrite (proj2 (rle_spec _ _) B)). rewrite E.
  cbn [orb]. destruct (Z.ltb_spec mt 1); [lia|]. now rewrite andb_false_r.
Qed.
Lemma curve_inv C1 C2 L1 L2 bnd int x y : curve_ok bnd int x y -> inv_tab1 (mktab1 (mktab2 C1 C2 L1 L2 bnd int) x y).
Proof. intros (A & B & C & D & E & F & G & H). unfold len in *. repeat split; cbn; auto; try lia; try congruence. Qed.
Theorem C60_file3 : forall mt za awr qm qi lr bnd int es xs, 0 < mt < 1000 -> 0 < za < 10 ^ 7 -> real_le rzero awr -> int32 lr -> curve_ok bnd int es xs ->
  exists x, make3 mt za awr qm qi lr bnd int es xs = Val x
  /\ s_mt x = mt /\ s_za x = za /\ s_awr x = awr /\ QM3 x = qm /\ QI3 x = qi /\ LR3 x = lr /\ energies3 x = es /\ crossSections3 x = xs /\ tells (s_body x) bnd int es xs
  /\ (endf_real awr -> rep_tab1 (s_body x) -> section_survives sec_3 x).
Proof.
  intros mt za awr qm qi lr bnd int es xs Hm Hz Ha Hl H. unfold make3. rewrite ids_ok by (lia || assumption). cbn [obind s_za s_awr s_mt]. unfold make_table3. rewrite make_tab1_ok by exact H. cbn [obind].
  eexists. split; [reflexivity|]. unfold LR3. cbn [s_body tbase tL2]. rewrite i32_in by exact Hl. do 8 (split; [reflexivity|]). split; [apply (proj1 (keeps_made _ _ _ _ _ _ _ _ H))|].
  intros Ra Rt. apply (section_again _ _ _ _ C38_mf3); [split; [exact Hz|split; assumption]|split; [exact Hm|exact Logic.I]|exact Rt|apply curve_inv; exact H].
Qed.
(** one region: interpolant for the whole table *)
Theorem C60_file3_one : forall mt za awr qm qi es xs interpolant lr, 0 < mt < 1000 -> 0 < za < 10 ^ 7 -> real_le rzero awr -> int32 lr -> 0 < len es < 2 ^ 31 -> length es = length xs -> ascending real_le es ->
  exists x, make3_one mt za awr qm qi es xs interpolant lr = Val x /\ QM3 x = qm /\ QI3 x = qi /\ LR3 x = lr /\ tells (s_body x) [len es] [interpolant] es xs.
Proof.
  intros mt za awr qm qi es xs interpolant lr Hm Hz Ha Hl Hn L A. destruct (C60_file3 mt za awr qm qi lr [len es] [interpolant] es xs Hm Hz Ha Hl) as (x & E & _ & _ & _ & B & C & D & _ & _ & T & _); [|exists x; auto].
  unfold curve_ok. cbn [last]. split; [discriminate|]. split; [lia|]. split; [lia|]. split; [exact L|]. split; [exact A|]. split; [reflexivity|]. split; [cbn; auto|reflexivity].
Qed.
Theorem C60_file23 : forall mt za awr epe efl bnd int es xs, 0 < mt < 1000 -> 0 < za < 10 ^ 7 -> real_le rzero awr -> curve_ok bnd int es xs ->
  exists x, make23 mt za awr epe efl bnd int es xs = Val x
  /\ s_mt x = mt /\ s_za x = za /\ s_awr x = awr /\ EPE23 x = epe /\ EFL23 x = efl /\ energies23 x = es /\ crossSections23 x = xs /\ tells (s_body x) bnd int es xs
  /\ (endf_real awr -> rep_tab1 (s_body x) -> section_survives sec_23 x).
Proof.
  intros mt za awr epe efl bnd int es xs Hm Hz Ha H. unfold make23. rewrite ids_ok by (lia || assumption). cbn [obind s_za s_awr s_mt]. unfold make_table23. rewrite make_tab1_ok by exact H. cbn [obind].
  eexists. split; [reflexivity|]. do 7 (split; [reflexivity|]). split; [apply (proj1 (keeps_made _ _ _ _ _ _ _ _ H))|].
  intros Ra Rt. apply (section_again _ _ _ _ C38_mf23); [split; [exact Hz|split; assumption]|split; [exact Hm|exact Logic.I]|exact Rt|apply curve_inv; exact H].
Qed.
(** the charge number of a section of File 27 is the one of its ZA *)
Theorem C60_file27 : forall mt za awr bnd int xs hs, 0 < mt < 1000 -> 0 < za < 10 ^ 7 -> real_le rzero awr -> curve_ok bnd int xs hs ->
  exists x, make27 mt za awr bnd int xs hs = Val x
  /\ s_mt x = mt /\ s_za x = za /\ s_awr x = awr /\ Z27 x = Val (za / 1000) /\ X27 x = xs /\ H27 x = hs /\ tells (s_body x) bnd int xs hs
  /\ (endf_real awr -> rep_tab1 (s_body x) -> section_survives sec_27 x).
Proof.
  intros mt za awr bnd int xs hs Hm Hz Ha H. unfold make27. rewrite ids_ok by (lia || assumption). cbn [obind s_za s_awr s_mt]. unfold make_table27. rewrite make_tab1_ok by exact H. cbn [obind].
  eexists. split; [reflexivity|]. do 3 (split; [reflexivity|]). split.
  - unfold Z27. cbn [s_body tbase tC2]. rewrite Z.quot_div_nonneg by lia. pose proof (Z.div_pos za 1000 ltac:(lia) ltac:(lia)). pose proof (Z.div_le_upper_bound za 1000 10000000 ltac:(lia) ltac:(lia)).
    rewrite trunc_of_int by lia. cbv zeta. destruct (Z.leb_spec 0 (za / 1000)); [|lia]. destruct (Z.ltb_spec (za / 1000) (2 ^ 32)); [reflexivity|lia].
  - do 2 (split; [reflexivity|]). split; [apply (proj1 (keeps_made _ _ _ _ _ _ _ _ H))|].
    intros Ra Rt. apply (section_again _ _ _ _ C38_mf27); [split; [exact Hz|split; assumption]|split; [exact Hm|exact Logic.I]|exact Rt|apply curve_inv; exact H].
Qed.
Lemma endf_minus_one : endf_real (mkreal true (rman r_one) (rexp r_one)).
Proof. right. exists 1000000, 0. split; [vm_compute; split; congruence|]. split; [vm_compute; reflexivity|]. vm_compute. reflexivity. Qed.
(** it is not looked at when a section is read: it may be anything, even undefined *)
Theorem C60_Z27_refuted : exists t1 t2, rep_tab1 t1 /\ inv_tab1 t1 /\ Z27 (mksect 92235 r_one 502 t1) = Val 1 /\ rep_tab1 t2 /\ inv_tab1 t2 /\ Z27 (mksect 92235 r_one 502 t2) = Undef.
Proof.
  exists (mktab1 (mktab2 r_one r_one 0 0 [1] [2]) [r_one] [r_one]), (mktab1 (mktab2 r_one (mkreal true (rman r_one) (rexp r_one)) 0 0 [1] [2]) [r_one] [r_one]).
  split; [unfold rep_tab1, rep_tab2; cbn [tbase tC1 tC2 tL1 tL2 tbnd tint tx ty]; xt|]. split; [unfold inv_tab1, inv_tab2; cbn [tbase tbnd tint tx ty]; xt|]. split; [vm_compute; reflexivity|].
  split; [unfold rep_tab1, rep_tab2; cbn [tbase tC1 tC2 tL1 tL2 tbnd tint tx ty]; pose proof endf_minus_one; split; [split; [xt|split; [assumption|xt]]|xt]|]. split; [unfold inv_tab1, inv_tab2; cbn [tbase tbnd tint tx ty]; xt|vm_compute; reflexivity].
Qed.
Example C60_example_file3 : exists x, make3_one 102 92235 r_pi r_one r_tiny [r_tiny; r_one; r_pi] [r_one; r_one; r_pi] 2 0 = Val x /\ good_ids x /\ rep_tab1 (s_body x).
Proof.
  eexists. split; [vm_compute; reflexivity|]. split.
  - split; [cbn [s_za]; lia|]. split; [cbn [s_awr]; xt|]. apply rle_spec. reflexivity.
  - unfold rep_tab1, rep_tab2; cbn [s_body tbase tC1 tC2 tL1 tL2 tbnd tint tx ty]; xt.
Qed.
