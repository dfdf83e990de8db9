(** PropMake.v -- C65: sections made from their parts. *)
From Coq Require Import ZifyBool ZifyNat.
From Verif Require Import Base Disco Records RealRound RealProofs Spec Sections SecSpec Codec SectionProofs SecKit CodecKit PropRecords Sec1 Sec1Spec Sec451 Sec451Spec Sec9 Sec9Spec Sec4 Sec4Spec Sec6 Sec6Spec Sec6Proofs
  Sec33 Sec33Spec Sec33Proofs Sec8 Sec8Spec Sec8Proofs Sec7 Sec7Spec Sec7Proofs PropSec7 Sec2 Sec2Spec PropSec2 PropSec33 Sec28 Sec28Proofs Sec32 Sec32Spec Fission Parts PropNamed Classes PropClasses ExKit Make.
Open Scope Z_scope.

(** ** specification *)
(** what every section checks of its identification; the classes with a fixed MT have no MT to check *)
Definition fixed_mt (c : sclass) : option Z :=
  match c with
  | K1_451 | K7_451 => Some 451 | K1_452 => Some 452 | K1_455 => Some 455 | K1_456 => Some 456 | K1_458 => Some 458 | K1_460 => Some 460
  | K2_151 | K32_151 => Some 151 | K2_152 => Some 152 | K7_2 => Some 2 | K7_4 => Some 4 | K8_454 => Some 454 | K8_457 => Some 457 | K8_459 => Some 459
  | _ => None
  end.
Definition number (c : sclass) (mt : Z) : Z := match fixed_mt c with Some n => n | None => mt end.
Definition identified (c : sclass) (mt za : Z) (awr : real) : Prop := 0 < za /\ real_le rzero awr /\ (fixed_mt c = None -> 0 < mt).
(** every constructor of a section class from its parts, as a function of MT, ZA and AWR, and the contents it is to have
    (a function of ZA, for the classes that repeat it) *)
Inductive maker : forall c, (Z -> Z -> real -> out (sect (sbody c))) -> (Z -> out (sbody c)) -> Prop :=
| mk451 lrp lfi nlib nmod elis sta lis liso nfor awi emax lrel nsub nver temp ldrv t idx rtol :
    maker K1_451 (fun _ za awr => make451 za awr lrp lfi nlib nmod elis sta lis liso nfor awi emax lrel nsub nver temp ldrv t idx rtol)
      (fun _ => Val (mkdescr lrp lfi nlib nmod (mkcont elis sta lis liso 0 nfor) (mkcont awi emax lrel 0 nsub nver)
        (mkcont temp rtol ldrv 0 (i32 (len (split_lines t))) (i32 (len idx))) (split_lines t) idx))
| mk452 m : maker K1_452 (fun _ za awr => make452 za awr m) (fun _ => Val m)
| mk455 d m : maker K1_455 (fun _ za awr => make455 za awr d m) (fun _ => Val (d, m))
| mk456 m : maker K1_456 (fun _ za awr => make456 za awr m) (fun _ => Val m)
| mk458 q : maker K1_458 (fun _ za awr => make458 za awr q) (fun _ => Val q)
| mk460 p : maker K1_460 (fun _ za awr => make460 za awr p) (fun _ => Val p)
| mk151 l : 0 < len l < 2 ^ 31 -> maker K2_151 (fun _ za awr => make151 za awr l) (fun _ => Val l)
| mk151n : maker K2_151 (fun _ za awr => make151 za awr []) (fun _ => Throw EStd)
| mk151r lfw rs : maker K2_151 (fun _ za awr => make151_ranges za awr lfw rs) (fun za => Val [mkresisotope za (of_int 1) lfw rs])
| mk151s el eh spin ap : maker K2_151 (fun _ za awr => make151_special za awr el eh spin ap)
    (fun za => Val [mkresisotope za (of_int 1) false [mkrange el eh 0 (Special spin ap) None]])
| mk152 lssf inter temp dil es a b c d e : maker K2_152 (fun _ za awr => make152 za awr lssf inter temp dil es a b c d e) (fun _ => make_152 lssf inter temp dil es a b c d e)
| mk152i lssf inter temp es a b c d e : maker K2_152 (fun _ za awr => make152_infinite za awr lssf inter temp es a b c d e) (fun _ => make_152_infinite lssf inter temp es a b c d e)
| mk3 qm qi lr bnd int es xs : maker K3 (fun mt za awr => make3 mt za awr qm qi lr bnd int es xs) (fun _ => make_tab1 qm qi 0 lr bnd int es xs)
| mk3o qm qi es xs i lr : maker K3 (fun mt za awr => make3_one mt za awr qm qi es xs i lr) (fun _ => make_tab1 qm qi 0 lr [len es] [i] es xs)
| mk23 epe efl bnd int es xs : maker K23 (fun mt za awr => make23 mt za awr epe efl bnd int es xs) (fun _ => make_tab1 epe efl 0 0 bnd int es xs)
| mk27 bnd int xs hs : maker K27 (fun mt za awr => make27 mt za awr bnd int xs hs) (fun za => make_tab1 rzero (of_int (Z.quot za 1000)) 0 0 bnd int xs hs)
| mk4 lct d : int32 lct -> maker K4 (fun mt za awr => make4 mt za awr lct d) (fun _ => Val (mkbody4 lct d))
| mk5 l : 0 < len l < 2 ^ 31 -> maker K5 (fun mt za awr => make5 mt za awr l) (fun _ => Val l)
| mk5n : maker K5 (fun mt za awr => make5 mt za awr []) (fun _ => Throw EStd)
| mk6 jp lct l : int32 jp -> int32 lct -> maker K6 (fun mt za awr => make6 mt za awr jp lct l) (fun _ => Val (mkbody6 jp lct l))
| mk7_2 e : maker K7_2 (fun _ za awr => make7_2 za awr e) (fun _ => Val e)
| mk7_4 lat lasym l w p os : maker K7_4 (fun _ za awr => make7_4 za awr lat lasym l w p os) (fun _ => make_thermal lat lasym l w p os)
| mk7_451 l : 0 < len l < 2 ^ 32 -> maker K7_451 (fun _ za awr => make7_451 za awr l) (fun _ => Val l)
| mk7_451n : maker K7_451 (fun _ za awr => make7_451 za awr []) (fun _ => Throw EStd)
| mk7_451o e : maker K7_451 (fun _ za awr => make7_451_one za awr e) (fun _ => Val [e])
| mk454 l : maker K8_454 (fun _ za awr => make_yield_section 454 za awr l) (fun _ => Val l)
| mk454o ids st ys l : make_yield ids st ys rzero 0 = Val l -> maker K8_454 (fun _ za awr => make_yield_one 454 za awr ids st ys) (fun _ => Val [l])
| mk454on ids st ys : make_yield ids st ys rzero 0 = Throw EStd -> maker K8_454 (fun _ za awr => make_yield_one 454 za awr ids st ys) (fun _ => Throw EStd)
| mk454m ids st es ints ys : maker K8_454 (fun _ za awr => make_yield_many 454 za awr ids st es ints ys) (fun _ => make_yields ids st es ints ys)
| mk459 l : maker K8_459 (fun _ za awr => make_yield_section 459 za awr l) (fun _ => Val l)
| mk459o ids st ys l : make_yield ids st ys rzero 0 = Val l -> maker K8_459 (fun _ za awr => make_yield_one 459 za awr ids st ys) (fun _ => Val [l])
| mk459on ids st ys : make_yield ids st ys rzero 0 = Throw EStd -> maker K8_459 (fun _ za awr => make_yield_one 459 za awr ids st ys) (fun _ => Throw EStd)
| mk459m ids st es ints ys : maker K8_459 (fun _ za awr => make_yield_many 459 za awr ids st es ints ys) (fun _ => make_yields ids st es ints ys)
| mk457 lis liso e m ss : 0 <= lis < 2 ^ 32 -> 0 <= liso < 2 ^ 32 -> maker K8_457 (fun _ za awr => make457 za awr lis liso e m ss) (fun _ => Val (mkdecay8 lis liso e m ss))
| mk457s lis liso spin parity : 0 <= lis < 2 ^ 32 -> 0 <= liso < 2 ^ 32 -> maker K8_457 (fun _ za awr => make457_stable za awr lis liso spin parity)
    (fun _ => Val (mkdecay8 lis liso stable_energies (stable_modes spin parity) []))
| mk9 lis l : int32 lis -> maker K9 (fun mt za awr => make9 mt za awr lis l) (fun _ => Val (mklevels lis l))
| mk10 lis l : int32 lis -> maker K10 (fun mt za awr => make10 mt za awr lis l) (fun _ => Val (mklevels lis l))
| mk12 p : maker K12 (fun mt za awr => make12 mt za awr p) (fun _ => Val p)
| mk13o p : maker K13 (fun mt za awr => make13_one mt za awr p) (fun _ => Val (mkmults None [p]))
| mk13t t l : 0 < len l < 2 ^ 31 -> maker K13 (fun mt za awr => make13_total mt za awr t l) (fun _ => Val (mkmults (Some t) l))
| mk13n t : maker K13 (fun mt za awr => make13_total mt za awr t []) (fun _ => Throw EStd)
| mk14i nk : int32 nk -> maker K14 (fun mt za awr => make14_isotropic mt za awr nk) (fun _ => Val (AllIsotropic nk))
| mk14 p ps : maker K14 (fun mt za awr => make14 mt za awr (p :: ps)) (fun _ => Val (Photons p ps))
| mk14n : maker K14 (fun mt za awr => make14 mt za awr []) (fun _ => Val (AllIsotropic 0))
| mk14p iso ani p ps : map (fun e => Isotropic14 (fst e) (snd e)) iso ++ ani = p :: ps -> maker K14 (fun mt za awr => make14_parts mt za awr iso ani) (fun _ => Val (Photons p ps))
| mk14c energies levels ani p ps : length energies = length levels -> len energies < 2 ^ 32 ->
    map (fun e => Isotropic14 (fst e) (snd e)) (combine energies levels) ++ ani = p :: ps -> maker K14 (fun mt za awr => make14_columns mt za awr energies levels ani) (fun _ => Val (Photons p ps))
| mk14cn energies levels ani : length energies <> length levels -> len energies < 2 ^ 32 ->
    maker K14 (fun mt za awr => make14_columns mt za awr energies levels ani) (fun _ => Throw EStd)
| mk15 l : 0 < len l < 2 ^ 31 -> maker K15 (fun mt za awr => make15 mt za awr l) (fun _ => Val l)
| mk15n : maker K15 (fun mt za awr => make15 mt za awr []) (fun _ => Throw EStd)
| mk26 l : maker K26 (fun mt za awr => make26 mt za awr l) (fun _ => Val l)
| mk28 l : maker K28 (fun mt za awr => make28 mt za awr l) (fun _ => Val l)
| mk31 l : maker K31 (fun mt za awr => make31 mt za awr l) (fun _ => Val l)
| mk32 l : 0 < len l < 2 ^ 31 -> maker K32_151 (fun _ za awr => make32_151 za awr l) (fun _ => Val l)
| mk32n : maker K32_151 (fun _ za awr => make32_151 za awr []) (fun _ => Throw EStd)
| mk32r lfw rs : maker K32_151 (fun _ za awr => make32_151_ranges za awr lfw rs) (fun za => Val [mkcisotope (of_int za) (of_int 1) lfw rs])
| mk33 l : maker K33 (fun mt za awr => make33 mt za awr l) (fun _ => Val (0, l))
| mk33l mtl : maker K33 (fun mt za awr => make33_lumped mt za awr mtl) (fun _ => Val (mtl, []))
| mk34 ltt l : maker K34 (fun mt za awr => make34 mt za awr ltt l) (fun _ => Val (ltt, l))
| mk35 l : maker K35 (fun mt za awr => make35 mt za awr l) (fun _ => Val l)
| mk40 lis l : maker K40 (fun mt za awr => make40 mt za awr lis l) (fun _ => Val (lis, l)).

(** ** what is made *)
Definition wants_mt (c : sclass) : bool := match fixed_mt c with None => true | _ => false end.
Lemma make_ids wmt za awr mt {B} (b : B) : (0 < za /\ real_le rzero awr /\ (wmt = true -> 0 < mt) /\ make_section wmt za awr mt b = Val (mksect za awr mt b))
  \/ (~ (0 < za /\ real_le rzero awr /\ (wmt = true -> 0 < mt)) /\ make_section wmt za awr mt b = Throw EStd).
Proof.
  unfold make_section. destruct (Z.ltb_spec za 1) as [A|A]; cbn [orb]; [right; split; [lia|reflexivity]|].
  unfold rlt. destruct (rle rzero awr) eqn:R; cbn [negb orb]; [|right; split; [|reflexivity]; intros (_ & K & _); apply rle_spec in K; congruence].
  apply rle_spec in R. destruct (Z.ltb_spec mt 1) as [D|D].
  - destruct wmt; cbn [andb]; [right; split; [|reflexivity]; intros (_ & _ & K); specialize (K eq_refl); lia|left]. repeat split; auto; try lia; discriminate.
  - rewrite andb_false_r. left. repeat split; auto; lia.
Qed.
Lemma maker_body : forall c f o, maker c f o -> forall mt za awr,
  f mt za awr = section_of (wants_mt c) za awr (number c mt) (o za) \/ (o za = Throw EStd /\ f mt za awr = Throw EStd).
Proof.
  assert (I1 : forall A (l : list A), 0 < len l < 2 ^ 31 -> at_least_one l = Val tt).
  { intros A l H. unfold at_least_one. rewrite isize_len by lia. destruct (Z.ltb_spec (len l) 1); [lia|reflexivity]. }
  assert (I2 : forall A (l : list A), 0 < len l < 2 ^ 31 -> some_partials l = Val l).
  { intros A l H. unfold some_partials. rewrite isize_len by lia. destruct (Z.eqb_spec (len l) 0); [lia|reflexivity]. }
  intros c f o M mt za awr. destruct M; try (left; reflexivity).
  all: try (left; unfold make151, make32_151, make_isotopes, make_cisotopes; rewrite I1 by assumption; reflexivity).
  all: try (left; unfold make5, make15; rewrite I2 by assumption; reflexivity).
  all: try (left; unfold make4, make6, make9, make10, make14_isotropic; rewrite !i32_in by assumption; reflexivity).
  all: idtac.
  all: try (left; unfold make_yield_one; match goal with H : make_yield _ _ _ _ _ = _ |- _ => rewrite H end; reflexivity).
  - left. unfold make458, section_of, number, wants_mt. cbn [fixed_mt]. destruct (make_ids false za awr 458 q) as [(_ & _ & _ & E)|(N & E)]; rewrite E.
    + unfold make_section in *. destruct (_ || _); [discriminate E|]. reflexivity.
    + unfold make_section in *. destruct (_ || _); [reflexivity|discriminate E].
  - left. unfold make7_451. destruct (C50_elements l ltac:(lia)) as [(-> & _)|(_ & E & _)]; [unfold len in *; cbn in *; lia|]. now rewrite E.
  - left. unfold make457, make_decay8. rewrite !u32_id by lia. reflexivity.
  - left. unfold make457_stable, stable_decay8. rewrite !u32_id by lia. reflexivity.
  - left. unfold make13_total, make13, make_multiplicities. rewrite isize_len by lia. destruct (Z.leb_spec (len l) 0); [lia|]. reflexivity.
  - left. unfold make14_parts, make14, photon_list. rewrite H. reflexivity.
  - left. unfold make14_columns. unfold len in *. rewrite u32_id by lia. rewrite H. rewrite Z.eqb_refl. cbn [negb]. unfold make14_parts, make14, photon_list. rewrite H1. reflexivity.
  - right. split; [reflexivity|]. unfold make14_columns. unfold len in *. rewrite u32_id by lia. destruct (Z.eqb_spec (Z.of_nat (length energies)) (Z.of_nat (length levels))); [lia|]. reflexivity.
Qed.
(** a section is made if its identification is valid and its contents are, and it is what was given; else the constructor throws a std::exception *)
Theorem C65_exactly : forall c f o, maker c f o -> forall mt za awr,
  (forall b, identified c mt za awr -> o za = Val b -> f mt za awr = Val (mksect za awr (number c mt) b))
  /\ (~ identified c mt za awr -> f mt za awr = Throw EStd) /\ (o za = Throw EStd -> f mt za awr = Throw EStd).
Proof.
  intros c f o M mt za awr. assert (W : wants_mt c = true <-> fixed_mt c = None) by (unfold wants_mt; destruct (fixed_mt c); split; congruence).
  assert (N : fixed_mt c = None -> number c mt = mt) by (unfold number; now intros ->).
  assert (Q : identified c mt za awr <-> 0 < za /\ real_le rzero awr /\ (wants_mt c = true -> 0 < number c mt)).
  { unfold identified. split; intros (A & B & D); (split; [exact A|split; [exact B|]]); intros K; [apply W in K; rewrite N by exact K; auto|]. rewrite <- N by exact K. apply D, W, K. }
  destruct (maker_body c f o M mt za awr) as [->|(E & ->)].
  - unfold section_of. destruct (make_ids (wants_mt c) za awr (number c mt) tt) as [(A & B & D & ->)|(K & ->)]; cbn [obind s_za s_awr s_mt].
    + split; [intros b _ ->; reflexivity|]. split; [intros K; destruct K; apply Q; auto|]. intros ->. reflexivity.
    + split; [intros b I; destruct K; apply Q, I|]. split; reflexivity.
  - split; [intros b _ K; congruence|]. split; auto.
Qed.
(** it survives printing and reading if what it was made of is valid and fits the columns *)
Theorem C65_survives : forall c f o, maker c f o -> forall mt za awr b, o za = Val b -> identified c mt za awr -> za < 10 ^ 7 -> endf_real awr -> number c mt < 1000 ->
  allowed (skind_of c) (number c mt) b -> lib_rep c b -> lib_inv c b ->
  exists x, f mt za awr = Val x /\ s_body x = b /\ section_survives (skind_of c) x.
Proof.
  intros c f o M mt za awr b E I Hz Ha Hm Al R V. destruct (C65_exactly c f o M mt za awr) as (X & _ & _). eexists. split; [exact (X b I E)|]. split; [reflexivity|].
  intros mat Hmat. destruct I as (I1 & I2 & I3). destruct (so_round_trip _ _ _ (lib_core c) (mksect za awr (number c mt) b) mat Hmat) as (body & P & _ & D); auto.
  - split; [cbn; lia|]. split; [exact Ha|exact I2].
  - split; [|exact Al]. unfold number in *. clear - I3 Hm. destruct c; cbn in *; try reflexivity; split; auto.
  - eexists. split; [exact P|]. intros rest ln. eexists. apply D.
Qed.
(** ... and every valid section of these classes can be made *)
Theorem C65_complete : forall c b, lib_inv c b -> ~ In c [K1_451; K2_152; K3; K23; K27; K33] -> exists f o, maker c f o /\ forall za, o za = Val b.
Proof.
  intros c b V N. destruct c; cbn [sbody lib_inv] in *; try (exfalso; cbn in N; tauto).
  - do 2 eexists. split; [apply (mk452 b)|]. reflexivity.
  - destruct b as [d m]. do 2 eexists. split; [apply (mk455 d m)|]. reflexivity.
  - do 2 eexists. split; [apply (mk456 b)|]. reflexivity.
  - do 2 eexists. split; [apply (mk458 b)|]. reflexivity.
  - do 2 eexists. split; [apply (mk460 b)|]. reflexivity.
  - do 2 eexists. split; [apply (mk151 b), V|]. reflexivity.
  - destruct b as [l d]. do 2 eexists. split; [apply (mk4 l d), V|]. reflexivity.
  - do 2 eexists. split; [apply (mk5 b), V|]. reflexivity.
  - destruct b as [jp lct l]. destruct V as (V1 & V2 & _). do 2 eexists. split; [apply (mk6 jp lct l); assumption|]. reflexivity.
  - do 2 eexists. split; [apply (mk7_2 b)|]. reflexivity.
  - destruct b as [lat lasym l w p os]. do 2 eexists. split; [apply (mk7_4 lat lasym l w p os)|]. intros za. cbv beta.
    destruct V as (I1 & I2 & I3 & I4 & I5 & I6 & I7 & I8 & I9 & I10). cbn [th_lat th_lasym th_constants th_law th_principal th_secondary] in *. assert (L6 : (6 <= length (lB l))%nat) by (assert (L := constants_length _ I3); lia).
    assert (S2 := proj2 (seconds_spec _ _ L6) (conj I7 (conj I9 I10))). apply make_thermal_val. split; [reflexivity|]. split; [exact I1|]. eexists. split; [apply types_ok, L6|]. apply agree_spec.
    apply (Forall2_impl' _ _ _ _ (fun a b H => proj1 H) S2).
  - do 2 eexists. split; [apply (mk7_451 b); destruct V; lia|]. reflexivity.
  - do 2 eexists. split; [apply (mk454 b)|]. reflexivity.
  - destruct b as [lis liso e m ss]. destruct V as (V1 & V2 & _). do 2 eexists. split; [apply (mk457 lis liso e m ss); assumption|]. reflexivity.
  - do 2 eexists. split; [apply (mk459 b)|]. reflexivity.
  - destruct b as [lis l]. do 2 eexists. split; [apply (mk9 lis l), V|]. reflexivity.
  - destruct b as [lis l]. do 2 eexists. split; [apply (mk10 lis l), V|]. reflexivity.
  - do 2 eexists. split; [apply (mk12 b)|]. reflexivity.
  - destruct b as [t l]. destruct V as (V1 & V2 & V3 & V4). cbn [mu_total mu_partials] in *. destruct (Z.eq_dec (len l) 1) as [E|E].
    + rewrite (V3 E). destruct l as [|p [|q l]]; unfold len in E; cbn [length] in E; try lia. do 2 eexists. split; [apply (mk13o p)|]. reflexivity.
    + destruct (V4 E) as (t' & -> & _). do 2 eexists. split; [apply (mk13t t' l V1)|]. reflexivity.
  - destruct V as (_ & _ & V). destruct b as [nk|p ps]; [do 2 eexists; split; [apply (mk14i nk V)|reflexivity]|]. do 2 eexists. split; [apply (mk14 p ps)|reflexivity].
  - do 2 eexists. split; [apply (mk15 b), V|]. reflexivity.
  - do 2 eexists. split; [apply (mk26 b)|]. reflexivity.
  - do 2 eexists. split; [apply (mk28 b)|]. reflexivity.
  - do 2 eexists. split; [apply (mk31 b)|]. reflexivity.
  - do 2 eexists. split; [apply (mk32 b), V|]. reflexivity.
  - destruct b as [ltt l]. do 2 eexists. split; [apply (mk34 ltt l)|]. reflexivity.
  - do 2 eexists. split; [apply (mk35 b)|]. reflexivity.
  - destruct b as [lis l]. do 2 eexists. split; [apply (mk40 lis l)|]. reflexivity.
Qed.
(** ... but not a section of File 33 that names the reaction it is lumped into and has reactions of its own, though such a section is read *)
Theorem C65_lumped_refuted : exists b, lib_inv K33 b /\ lib_rep K33 b /\ forall f o za, maker K33 f o -> o za <> Val b.
Proof.
  exists (851, [xblock; xblock]). destruct C55_example_33 as (_ & _ & R & I). split; [exact I|]. split; [exact R|]. intros f o za M.
  assert (K : forall c f o, maker c f o -> match c return (Z -> out (sbody c)) -> Prop with K33 => fun o => forall za b, o za = Val b -> fst b = 0 \/ snd b = [] | _ => fun _ => True end o).
  { intros c g u N. destruct N; try exact Logic.I; intros w b E; injection E as <-; auto. }
  intros E. destruct (K _ _ _ M za _ E) as [H|H]; discriminate H.
Qed.
(** nor a section of File 3 with a number in the field that has no name *)
Theorem C65_unnamed_refuted : exists b, lib_inv K3 b /\ lib_rep K3 b /\ forall f o za, maker K3 f o -> o za <> Val b.
Proof.
  exists (xtab1 5 0). split; [cbn [lib_inv]; xt|]. split; [cbn [lib_rep]; xt|]. intros f o za M.
  assert (K : forall c f o, maker c f o -> match c return (Z -> out (sbody c)) -> Prop with K3 => fun o => forall za b, o za = Val b -> tL1 (tbase b) = 0 | _ => fun _ => True end o).
  { assert (G : forall C1 C2 L2 bnd int x y b, make_tab1 C1 C2 0 L2 bnd int x y = Val b -> tL1 (tbase b) = 0).
    { intros C1 C2 L2 bnd int x y b E. apply make_tab1_val in E. destruct E as (-> & _). reflexivity. }
    intros c g u N. destruct N; try exact Logic.I; intros w t E; apply G in E; exact E. }
  intros E. discriminate (K _ _ _ M za _ E).
Qed.
(** which sections of the remaining classes can be made: those whose unnamed fields are zero, in File 27 with the Z of the ZA, in File 33 with a reaction it is lumped into or reactions, not both *)
Theorem C65_makable : forall za t b, inv_tab1 t -> len (tx t) < 2 ^ 31 ->
  ((exists f o, maker K3 f o /\ o za = Val t) <-> tL1 (tbase t) = 0)
  /\ ((exists f o, maker K23 f o /\ o za = Val t) <-> tL1 (tbase t) = 0 /\ tL2 (tbase t) = 0)
  /\ ((exists f o, maker K27 f o /\ o za = Val t) <-> tC1 (tbase t) = rzero /\ tC2 (tbase t) = of_int (Z.quot za 1000) /\ tL1 (tbase t) = 0 /\ tL2 (tbase t) = 0)
  /\ ((exists f o, maker K33 f o /\ o za = Val b) <-> fst b = 0 \/ snd b = []).
Proof.
  intros za t b V L. destruct t as [[C1 C2 L1 L2 bnd int] x y]. cbn [tx tbase tC1 tC2 tL1 tL2] in *.
  assert (K : forall c1 c2 l1 l2, make_tab1 c1 c2 l1 l2 bnd int x y = Val (mktab1 (mktab2 c1 c2 l1 l2 bnd int) x y)).
  { intros. apply make_tab1_ok. destruct V as ((A & B & C & D) & E & F & G). cbn [tbase tbnd tint tx ty] in *. unfold curve_ok, len in *. repeat split; auto; try lia; congruence. }
  assert (G : forall c1 c2 l1 l2 bn it u w, make_tab1 c1 c2 l1 l2 bn it u w = Val (mktab1 (mktab2 C1 C2 L1 L2 bnd int) x y) -> c1 = C1 /\ c2 = C2 /\ l1 = L1 /\ l2 = L2).
  { intros c1 c2 l1 l2 bn it u w E. apply make_tab1_val in E. destruct E as (E & _). injection E. auto. }
  assert (W : forall c f o, maker c f o -> match c return (Z -> out (sbody c)) -> Prop with
     | K3 => fun o => o za = Val (mktab1 (mktab2 C1 C2 L1 L2 bnd int) x y) -> L1 = 0
     | K23 => fun o => o za = Val (mktab1 (mktab2 C1 C2 L1 L2 bnd int) x y) -> L1 = 0 /\ L2 = 0
     | K27 => fun o => o za = Val (mktab1 (mktab2 C1 C2 L1 L2 bnd int) x y) -> C1 = rzero /\ C2 = of_int (Z.quot za 1000) /\ L1 = 0 /\ L2 = 0
     | K33 => fun o => o za = Val b -> fst b = 0 \/ snd b = [] | _ => fun _ => True end o).
  { intros c g u N. destruct N; try exact Logic.I; intros E; try (apply G in E; intuition congruence); injection E as <-; auto. }
  split; [|split; [|split]]; (split; [intros (f & o & M & E); exact (W _ _ _ M E)|]).
  - intros ->. do 2 eexists. split; [apply (mk3 C1 C2 L2 bnd int x y)|]. apply K.
  - intros (-> & ->). do 2 eexists. split; [apply (mk23 C1 C2 bnd int x y)|]. apply K.
  - intros (-> & -> & -> & ->). do 2 eexists. split; [apply (mk27 bnd int x y)|]. apply K.
  - destruct b as [m l]. cbn [fst snd]. intros [-> | ->]; do 2 eexists; (split; [apply (mk33 l) || apply (mk33l m)|reflexivity]).
Qed.
(** a section that was made survives only if what it was made of is valid, which the constructors do not check everywhere *)
Theorem C65_survives_only : forall c x, section_survives (skind_of c) x -> lib_inv c (s_body x).
Proof.
  intros c x S. destruct (S 1 ltac:(lia)) as (t & _ & P). destruct (P [] 0) as (ln & E). unfold parse_section, bind in E. destruct (rd_sdiv _) as [h s| | ] eqn:H; try discriminate E.
  destruct (so_sound _ _ _ (lib_core c) _ _ _ _ _ E) as (_ & _ & _ & _ & _ & _ & _ & I & _). exact I.
Qed.
(** so a total with one partial cross section, accepted in File 13, does not survive (nor do photons of two kinds in File 14) *)
Theorem C65_total_refuted : exists f o x, maker K13 f o /\ f 16 92235 r_one = Val x /\ lib_rep K13 (s_body x) /\ ~ section_survives (skind_of K13) x.
Proof.
  do 2 eexists. exists (mksect 92235 r_one 16 (mkmults (Some (xtab1 0 0)) [xtab1 0 0])). split; [apply (mk13t (xtab1 0 0) [xtab1 0 0]); unfold len; cbn; lia|]. split; [vm_compute; reflexivity|]. split.
  - cbn [lib_rep s_body]. split; cbn [mu_total mu_partials]; [intros t E; injection E as <-; xt|constructor; [xt|constructor]].
  - intros S. apply C65_survives_only in S. destruct S as (_ & _ & S & _). discriminate (S eq_refl).
Qed.
Theorem C65_kinds_refuted : exists f o x, maker K14 f o /\ f 16 92235 r_one = Val x /\ lib_rep K14 (s_body x) /\ ~ section_survives (skind_of K14) x.
Proof.
  set (q1 := mkiseq (xtab2 0 0) [xlist 0 0 0 [r_one]; xlist 0 0 0 [r_pi]; xlist 0 0 0 [r_tiny]]).
  set (q2 := mkiseq (xtab2 0 0) [xtab1 0 0; xtab1 0 0; xtab1 0 0]).
  do 2 eexists. exists (mksect 92235 r_one 16 (Photons (Legendre14 q1) [Tabulated14 q2])). split; [apply (mk14 (Legendre14 q1) [Tabulated14 q2])|]. split; [vm_compute; reflexivity|]. split.
  - cbn [lib_rep s_body]. unfold rep_body14. cbn [photons_of]. split; [|xt]. constructor; [cbn; unfold q1; xt|]. constructor; [cbn; unfold q2; xt|constructor].
  - intros S. apply C65_survives_only in S. destruct S as (_ & (iso & ani & k & Ei & F1 & F2 & Hk) & _). cbn [photons_of s_body] in Ei. destruct iso as [|p iso]; cbn [app] in Ei.
    + subst ani. inversion F2 as [|? ? A B]. subst. inversion B as [|? ? C _]. subst. cbn in C. discriminate.
    + injection Ei as <- _. inversion F1 as [|? ? A _]. discriminate A.
Qed.
(** ** the parts that are objects of their own *)
Theorem C65_discrete_photons : forall l, (0 < len l < 2 ^ 31 -> make_discrete_photons l = Val (DiscretePhotons l)) /\ make_discrete_photons [] = Throw EStd.
Proof. intros l. split; [|reflexivity]. intros H. unfold make_discrete_photons. rewrite isize_len by lia. destruct (Z.leb_spec (len l) 0); [lia|reflexivity]. Qed.
(** the composites of File 32: the spin and the radius are what is given (zero for the R-matrix), the flag is the one given, the number of spin groups that of the parameters *)
Theorem C65_compact : forall spi ap dap l m lad daps l' m' ifg u m'', len (r32_groups u) < 2 ^ 32 ->
  let a := make_compact_bw spi ap dap l m in let b := make_compact_rm spi ap lad daps l' m' in let c := make_compact_rml ifg daps u m'' in
  (co_spi a = spi /\ co_ap a = ap /\ co_dap a = dap /\ co_unc a = l /\ co_corr a = m)
  /\ (co_spi b = spi /\ co_ap b = ap /\ compact_LAD b = lad /\ co_dap b = daps /\ co_unc b = l' /\ co_corr b = m')
  /\ (co_spi c = rzero /\ co_ap c = rzero /\ compact_IFG c = ifg /\ compact_NJS c = len (r32_groups u) /\ co_dap c = daps /\ co_unc c = u /\ co_corr c = m'')
  /\ (forall d : compact listr rml32, compact_IFG d = false <-> co_l1 d = 0)
  /\ (forall d : compact listr listr, compact_LAD d = false <-> co_l1 d = 0).
Proof.
  intros. assert (P := len_nonneg (r32_groups u)). unfold compact_NJS, c. cbn [make_compact_rml co_n1]. unfold r32_NJSX. unfold len in *. rewrite !u32_id by (rewrite ?u32_id; lia).
  assert (Fl : forall d : compact listr rml32, compact_IFG d = false <-> co_l1 d = 0) by (intros d; unfold compact_IFG; lia).
  assert (Fr : forall d : compact listr listr, compact_LAD d = false <-> co_l1 d = 0) by (intros d; unfold compact_LAD; lia).
  destruct lad, ifg; repeat split; first [reflexivity|apply Fl|apply Fr].
Qed.
(** ... and on the tape: the flag and the number of groups where the reader looks for them *)
Theorem C65_compact_printed : forall spi ap dap l m lad daps l' m' ifg u m'' mat mf mt, len (r32_groups u) < 2 ^ 32 ->
  let flag (b : bool) := if b then 1 else 0 in let has {A} (o : option A) := match o with Some _ => 1 | None => 0 end in
  exists r1 r2 r3, pr_cparams (CompactSLBW (make_compact_bw spi ap dap l m)) mat mf mt = pr_cont (mkcont spi ap 0 2 0 (has dap)) mat mf mt ++ r1
  /\ pr_cparams (CompactRM (make_compact_rm spi ap lad daps l' m')) mat mf mt = pr_cont (mkcont spi ap (flag lad) 2 0 (has daps)) mat mf mt ++ r2
  /\ pr_cparams (CompactRML (make_compact_rml ifg daps u m'')) mat mf mt = pr_cont (mkcont rzero rzero (flag ifg) 2 (len (r32_groups u)) (has daps)) mat mf mt ++ r3.
Proof.
  intros spi ap dap l m lad daps l' m' ifg u m'' mat mf mt H. cbv zeta. do 3 eexists. unfold pr_cparams, pr_compact, compact_head. cbn [make_compact_bw make_compact_rm make_compact_rml co_spi co_ap co_l1 co_n1 co_dap].
  assert (P := len_nonneg (r32_groups u)). unfold r32_NJSX. unfold len in *. rewrite u32_id by lia. destruct dap, daps, lad, ifg; repeat split.
Qed.
(** the blocks of the covariance files *)
Theorem C65_blocks : forall xmf1_ xlfs1_ mat1_ mt1_ nc ni l l1 lct data qm qi izap lfs rs, len nc < 2 ^ 31 -> len ni < 2 ^ 31 -> len data < 2 ^ 31 -> len rs < 2 ^ 31 ->
  let b := make_block xmf1_ xlfs1_ mat1_ mt1_ nc ni in let g := make_legblock l l1 lct data in let v := make_level qm qi izap lfs rs in
  (xmf1 b = xmf1_ /\ xlfs1 b = xlfs1_ /\ mat1 b = mat1_ /\ mt1 b = mt1_ /\ block_NK b = len nc /\ block_NI b = len ni /\ b_nc b = nc /\ b_ni b = ni)
  /\ make_block_nc xmf1_ xlfs1_ mat1_ mt1_ nc = make_block xmf1_ xlfs1_ mat1_ mt1_ nc [] /\ make_block_ni xmf1_ xlfs1_ mat1_ mt1_ ni = make_block xmf1_ xlfs1_ mat1_ mt1_ [] ni
  /\ (lg_l g = l /\ lg_l1 g = l1 /\ lg_lct g = lct /\ leg_NI g = len data /\ lg_data g = data)
  /\ (lv_qm v = qm /\ lv_qi v = qi /\ lv_izap v = izap /\ lv_lfs v = lfs /\ level_NL v = len rs /\ lv_reactions v = rs).
Proof. intros. unfold block_NK, block_NI, leg_NI, level_NL. subst b g v. cbn [make_block make_legblock make_level b_nc b_ni lg_data lv_reactions]. rewrite !isize_len by assumption. repeat split. Qed.
(** a reaction block of File 34 holds NL NL1 Legendre blocks, or the triangle of them on the diagonal *)
Theorem C65_block34 : forall mt mt1 nl nl1 bs, 0 <= nl < 2 ^ 15 -> 0 <= nl1 < 2 ^ 15 -> len bs < 2 ^ 31 ->
  ((mt = mt1 -> nl = nl1 /\ 2 * len bs = nl * (nl + 1)) /\ (mt <> mt1 -> len bs = nl * nl1) -> make_block34 mt mt1 nl nl1 bs = Val (mkblock34 mt1 nl nl1 bs) /\ b34_NSS (mkblock34 mt1 nl nl1 bs) = len bs)
  /\ (~ ((mt = mt1 -> nl = nl1 /\ 2 * len bs = nl * (nl + 1)) /\ (mt <> mt1 -> len bs = nl * nl1)) -> make_block34 mt mt1 nl nl1 bs = Throw EStd).
Proof.
  assert (IO : forall z, int32 z -> int_op z = Val z) by (intros; now apply int_op_val). intros mt mt1 nl nl1 bs H1 H2 H3. assert (P := len_nonneg bs). unfold make_block34, b34_NSS. cbn [b34_blocks]. rewrite isize_len by lia. unfold size_block34.
  destruct (Z.eqb_spec mt mt1) as [E|E].
  - destruct (Z.eqb_spec nl nl1) as [F|F]; [|split; [intros (K & _); destruct (K E); congruence|reflexivity]].
    rewrite (IO (nl + 1)) by (unfold int32; lia). cbn [obind]. rewrite (IO (nl * (nl + 1))) by (unfold int32; nia). cbn [obind]. rewrite Z.quot_div_nonneg by nia.
    assert (Ev : nl * (nl + 1) mod 2 = 0). { destruct (Z.Even_or_Odd nl) as [[k ->]|[k ->]]; [apply Z.mod_divide; [lia|]; exists (k * (2 * k + 1)); ring|apply Z.mod_divide; [lia|]; exists ((2 * k + 1) * (k + 1)); ring]. }
    assert (D := Z.div_mod (nl * (nl + 1)) 2 ltac:(lia)). unfold ensure. destruct (Z.eqb_spec (nl * (nl + 1) / 2) (len bs)); cbn [obind]; split; auto.
    + intros K. destruct K. split; [lia|congruence].
    + intros (K & _). destruct (K E). lia.
  - rewrite (IO (nl * nl1)) by (unfold int32; nia). cbn [obind]. unfold ensure. destruct (Z.eqb_spec (nl * nl1) (len bs)) as [F|F]; cbn [obind]; split; auto.
    + intros K. destruct K. split; [congruence|auto].
    + intros (_ & K). specialize (K E). congruence.
Qed.
(** a block made for one section is accepted by the constructor of another, and does not survive there *)
Theorem C65_block34_refuted : exists b x, make_block34 2 2 2 2 [make_legblock 1 1 0 []; make_legblock 1 2 0 []; make_legblock 2 2 0 []] = Val b
  /\ make34 4 92235 r_one 1 [b] = Val x /\ lib_rep K34 (s_body x) /\ lib_inv K34 (s_body x) /\ ~ section_survives (skind_of K34) x.
Proof.
  do 2 eexists. split; [reflexivity|]. split; [reflexivity|]. cbn [s_body lib_rep lib_inv]. split; [|split].
  - unfold rep_flagged. cbn [snd]. repeat (constructor; cbn; auto).
  - unfold inv_flagged, many_of, inv_block34, len. cbn [fst snd]. split; [unfold int32; lia|]. split; [|cbn; lia]. constructor; [|constructor]. cbn [b34_mt1 b34_nl b34_nl1 b34_blocks]. do 3 (split; [unfold int32; lia|]).
    split; [|reflexivity]. repeat (constructor; [unfold inv_legblock, many_of, len, make_legblock; cbn [lg_l lg_l1 lg_lct lg_data length]; repeat (split; [unfold int32; lia|]); split; [constructor|reflexivity]|]). constructor.
  - intros S. destruct (S 1 ltac:(lia)) as (t & _ & P). destruct (P [] 0) as (ln & E). unfold parse_section, bind in E. destruct (rd_sdiv _) as [h s| | ] eqn:H; try discriminate E.
    destruct (so_sound _ _ _ (lib_core K34) _ _ _ _ _ E) as (_ & _ & _ & _ & _ & _ & _ & _ & A). cbn [s_mt s_body] in A. unfold allowed in A. cbn in A. inversion A as [|? ? B _]. unfold made_for in B. discriminate B.
Qed.
(** ** the hypotheses are met *)
Example C65_example : exists f o b, maker K9 f o /\ o 92235 = Val b /\ lib_rep K9 b /\ lib_inv K9 b /\ identified K9 102 92235 r_one /\ exists x, f 102 92235 r_one = Val x.
Proof.
  do 2 eexists. exists (mklevels 1 [xtab1 0 0; xtab1 2 1]). split; [apply (mk9 1 [xtab1 0 0; xtab1 2 1]); unfold int32; lia|]. split; [reflexivity|]. split; [|split; [|split]].
  - cbn [lib_rep]. unfold rep_levels. cbn [lv_products]. repeat (constructor; [xt|]). constructor.
  - cbn [lib_inv]. unfold inv_levels. cbn [lv_products lv_lis]. split; [unfold int32; lia|]. split; [repeat (constructor; [xt|]); constructor|reflexivity].
  - split; [lia|]. split; [apply rle_spec; reflexivity|intros _; lia].
  - eexists. vm_compute. reflexivity.
Qed.
