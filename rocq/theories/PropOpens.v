(** PropOpens.v -- C60: the first line of every list record that a constructor makes from parts. *)
From Coq Require Import ZifyBool ZifyNat.
From Verif Require Import Base Disco Records RecordProofs Spec SecSpec Codec SectionProofs Sections Sec1 Sec2 Sec8Proofs Sec2Proofs Sec6Proofs Sec6 Sec7 Sec8 Sec9 Sec28 Sec32 Sec33 Fission Law1 Parts PropNamed PropSec7 PropRecords.
Open Scope Z_scope.
Notation length := List.length.

(** the record starts with a line with these numbers; N1 is the number of values *)
Definition opens_list (l : listr) (C1 C2 : real) (L1 L2 N2 : Z) : Prop := forall mat mf mt, exists rest,
  pr_list l mat mf mt = pr_cont (mkcont C1 C2 L1 L2 (len (lB l)) N2) mat mf mt ++ rest.
(** every constructor of a list record, and what its first line carries; the values that have no name are zero *)
Inductive list_constructor : out listr -> real -> real -> Z -> Z -> Z -> Prop :=
(* 1/455 DecayConstants, 1/458 *)
| lc_decay : forall e cs abs, list_constructor (make_decay e cs abs) rzero e 0 0 0
| lc_thermal_point : forall a b c d e f g h i, list_constructor (make_thermal_point a b c d e f g h i) rzero rzero 0 0 9
| lc_polynomial9 : forall a b c d e f g h i, len a < 2 ^ 32 ->
    list_constructor (make_polynomial9 a b c d e f g h i) rzero rzero 0 (len a - 1) (9 * len a)
(* 2/151: the L values of the resolved resonances, of the unresolved resonances, the spins *)
| lc_lvalue : forall awri c2 l b es sp w x y z, list_constructor (make_lvalue awri c2 l b es sp w x y z) awri c2 l (if b then 1 else 0) (len es)
| lc_independent : forall awri l sp d am gn gg, list_constructor (Sec2.make_independent awri l sp d am gn gg) awri rzero l 0 (len sp)
| lc_dependent : forall j an ag af ax i es d gn gg gf gx, list_constructor (Sec2.make_dependent j an ag af ax i es d gn gg gf gx) j rzero i 0 (len es)
| lc_widths : forall l j d an af gn gg gf, list_constructor (make_widths l j d an af gn gg gf) rzero rzero l af 0
(* 2/151 RMatrixLimited: particle pairs, channels, resonances *)
| lc_pairs_rml : forall ma mb za zb ia ib pa pb q pnt shf mt, list_constructor (make_pairs_rml ma mb za zb ia ib pa pb q pnt shf mt) rzero rzero (len ma) 0 (2 * len ma)
| lc_channels : forall j p ppi l s b apt ape kbk kps, list_constructor (make_channels j p ppi l s b apt ape kbk kps) j p kbk kps (len l)
(* 6, LAW = 1, 2 and 5 *)
| lc_leg1 : forall e nd na es cs, list_constructor (make_leg1 e nd na es cs) rzero e nd na (len es)
| lc_kalbach1 : forall e nd na rows, list_constructor (make_kalbach1 e nd na rows) rzero e nd na (len rows)
| lc_tabd1 : forall lang e nd na es f0 mu f, list_constructor (make_tabd1 lang e nd na es f0 mu f) rzero e nd na (len es)
| lc_thermal1 : forall e n data, list_constructor (Val (make_thermal1 e n data)) rzero e 0 0 n
| lc_thermal_cosines : forall e cs, list_constructor (Val (make_thermal_cosines e cs)) rzero e 0 0 (len cs + 2)
| lc_tab_cosines : forall ok e lang cs ps, list_constructor (make_tab_cosines ok e lang cs ps) rzero e lang 0 (len cs)
| lc_amplitudes : forall e nl b ar ai, list_constructor (make_amplitudes e nl b ar ai) rzero e 1 0 nl
| lc_leg5 : forall e cs, list_constructor (make_leg5 e cs) rzero e 2 0 (len cs - 1)
(* 7/4 and 7/451 *)
| lc_constants : forall lln ns vs, list_constructor (make_constants_list lln ns vs) rzero rzero lln 0 ns
| lc_element : forall n ids st a w x, list_constructor (make_element n ids st a w x) rzero rzero n 0 (len ids)
(* 8 *)
| lc_yield : forall ids st ys e i, list_constructor (make_yield ids st ys e i) e rzero i 0 (len ids)
| lc_energies : forall hl es, list_constructor (make_energies hl es) (fst hl) (snd hl) 0 0 0
| lc_stable_energies : list_constructor (Val stable_energies) rzero rzero 0 0 0
| lc_modes : forall j p ms, list_constructor (make_modes j p ms) j p 0 0 (len ms)
| lc_stable_modes : forall j p, list_constructor (Val (stable_modes j p)) j p 0 0 0
| lc_discrete : forall e vs, list_constructor (make_discrete e vs) (fst e) (snd e) 0 0 0
| lc_spectrum : forall lcon type n a b c, list_constructor (Val (spec_data lcon type n a b c)) rzero type lcon 0 n
(* 12 and 28 *)
| lc_transitions2 : forall e es tp, list_constructor (make_transitions2 e es tp) e rzero 0 0 (len es)
| lc_transitions3 : forall e es tp gp, list_constructor (make_transitions3 e es tp gp) e rzero 0 0 (len es)
| lc_subshell : forall subi ebi eln sj sk e p, list_constructor (make_subshell subi ebi eln sj sk e p) (of_int subi) rzero 0 0 (len sj)
(* 32/151 *)
| lc_limited : forall awri l es b1 b2 b3 b4 b5 b6 b7 b8 b9 b10 b11 b12 b13 b14 b15 b16,
    list_constructor (make_limited_lvalue awri l es b1 b2 b3 b4 b5 b6 b7 b8 b9 b10 b11 b12 b13 b14 b15 b16) awri rzero l 0 (len es)
| lc_short : forall m es sp a b c d vs, list_constructor (make_short m es sp a b c d vs) rzero rzero m 0 (len es)
| lc_radii : forall dap l, list_constructor (Val (make_radii dap l)) rzero rzero 0 0 0
| lc_bw : forall awri qx lrx es a b c d e f g h i, list_constructor (make_bw_uncertainties awri qx lrx es a b c d e f g h i) awri qx 0 (if lrx then 1 else 0) (len es)
| lc_rm : forall awri apl es a b c d e f g h i j, list_constructor (make_rm_uncertainties awri apl es a b c d e f g h i j) awri apl 0 0 (len es)
| lc_pairs32 : forall n ma mb za zb ia ib pa pb q pnt shf mt, list_constructor (make_pairs32 n ma mb za zb ia ib pa pb q pnt shf mt) rzero rzero (len ma) n (2 * len ma)
| lc_unres : forall awri l sp d a b c e, list_constructor (make_unres_lvalue awri l sp d a b c e) awri rzero l 0 (len sp)
(* 33 and 35 *)
| lc_pairs : forall lb ek fk el fl, list_constructor (make_pairs lb ek fk el fl) rzero rzero (len el) lb (len ek + len el)
| lc_square : forall ls es vs, list_constructor (make_square ls es vs) rzero rzero ls 5 (len es)
| lc_rect : forall r c vs, list_constructor (make_rect r c vs) rzero rzero 0 6 (len r)
| lc_square35 : forall e1 e2 es vs, list_constructor (make_square35 e1 e2 es vs) e1 e2 1 7 (len es).
Lemma opens_fields (x : listr) c1 c2 l1 l2 n2 : lC1 x = c1 /\ lC2 x = c2 /\ lL1 x = l1 /\ lL2 x = l2 /\ lN2 x = n2 -> opens_list x c1 c2 l1 l2 n2.
Proof. intros (A & B & C & D & F) mat mf mt. unfold pr_list, npl. rewrite A, B, C, D, F. eexists. reflexivity. Qed.
Ltac step H :=
  match type of H with
  | (if ?b then _ else _) = Val _ => destruct b; [try discriminate H|try discriminate H]
  | obind ?a _ = Val _ => apply obind_val in H; let u := fresh "u" in let K := fresh "K" in destruct H as (u & K & H); cbv beta in H
  end.
Ltac fields E := cbv zeta in E; repeat step E; injection E as <-; repeat (split; [reflexivity|]); reflexivity.
Theorem C60_list_heads : forall o c1 c2 l1 l2 n2, list_constructor o c1 c2 l1 l2 n2 -> forall x, o = Val x -> opens_list x c1 c2 l1 l2 n2.
Proof.
  intros o c1 c2 l1 l2 n2 H x E. apply opens_fields. destruct H.
  - unfold make_decay in E. fields E.
  - unfold make_thermal_point in E. fields E.
  - unfold make_polynomial9, polynomial_list in E. cbv zeta in E. repeat step E. injection E as <-. cbn [lC1 lC2 lL1 lL2 lN2].
    destruct (existsb _ _); [discriminate K|]. injection K as <-. fold (len a). rewrite u32_id by (unfold len in *; lia). replace (Z.to_nat (len a)) with (length a) by (unfold len; lia).
    match goal with |- context [List.length ?l] => match l with flat_map _ _ => assert (L : length l = (18 * length a)%nat) end end.
    { rewrite flat_map_concat_map. set (g0 := fun i : nat => _). assert (G : forall i, length (g0 i) = 18%nat) by reflexivity. clearbody g0. enough (Z0 : forall m, length (concat (map g0 (seq m (length a)))) = (18 * length a)%nat) by apply Z0. induction (length a) as [|k IH]; intros m; [reflexivity|]. cbn [seq map concat]. rewrite app_length, G, IH. lia. }
    rewrite L. unfold len. do 3 (split; [reflexivity|]). split; lia.
  - unfold make_lvalue in E. fields E.
  - unfold Sec2.make_independent in E. fields E.
  - unfold Sec2.make_dependent in E. fields E.
  - unfold make_widths in E. fields E.
  - unfold make_pairs_rml in E. fields E.
  - unfold make_channels in E. fields E.
  - unfold make_leg1 in E. fields E.
  - unfold make_kalbach1 in E. fields E.
  - unfold make_tabd1 in E. fields E.
  - fields E.
  - fields E.
  - unfold make_tab_cosines in E. fields E.
  - unfold make_amplitudes in E. fields E.
  - unfold make_leg5 in E. fields E.
  - unfold make_constants_list in E. fields E.
  - unfold make_element in E. fields E.
  - unfold make_yield in E. fields E.
  - unfold make_energies in E. fields E.
  - fields E.
  - unfold make_modes in E. fields E.
  - fields E.
  - unfold make_discrete in E. fields E.
  - fields E.
  - unfold make_transitions2, verified_LG in E. fields E.
  - unfold make_transitions3, verified_LG in E. fields E.
  - unfold make_subshell in E. fields E.
  - unfold make_limited_lvalue in E. fields E.
  - unfold make_short in E. fields E.
  - fields E.
  - unfold make_bw_uncertainties in E. fields E.
  - unfold make_rm_uncertainties in E. fields E.
  - unfold make_pairs32 in E. fields E.
  - unfold make_unres_lvalue in E. fields E.
  - unfold make_pairs in E. cbv zeta in E. repeat step E; injection E as <-. repeat (split; [reflexivity|]). cbn [lN2]. unfold len. lia.
  - unfold make_square in E. fields E.
  - unfold make_rect in E. fields E.
  - unfold make_square35 in E. fields E.
Qed.
(** the lists whose N2 is a number of lines *)
Theorem C60_list_zeros :
  (forall es ps x, make_parameters es ps = Val x -> lC1 x = rzero /\ lC2 x = rzero /\ lL1 x = 0)
  /\ (forall es ps x, make_short_parameters es ps = Val x -> lC1 x = rzero /\ lC2 x = rzero)
  /\ (forall es ps ds qs x, make_parameters12 es ps ds qs = Val x -> lC1 x = rzero /\ lC2 x = rzero /\ lL1 x = 0)
  /\ (forall lssf inter temp dil es tot el fi ca cw x, make_152 lssf inter temp dil es tot el fi ca cw = Val x -> lC2 (sh_data x) = rzero).
Proof.
  split; [|split; [|split]].
  - intros es ps x E. unfold make_parameters in E. fields E.
  - intros es ps x E. unfold make_short_parameters in E. fields E.
  - intros es ps ds qs x E. unfold make_parameters12 in E. fields E.
  - intros lssf inter temp dil es tot el fi ca cw x E. unfold make_152 in E. fields E.
Qed.
Example C60_list_example : exists x, make_subshell 1 (of_int 5) 2 [2] [0] [of_int 4] [of_int 1] = Val x /\ opens_list x (of_int 1) rzero 0 0 1
  /\ exists y, make_square 1 [of_int 1; of_int 2] [of_int 3] = Val y /\ opens_list y rzero rzero 1 5 2.
Proof.
  eexists. split; [reflexivity|]. split; [exact (C60_list_heads _ _ _ _ _ _ (lc_subshell 1 (of_int 5) 2 [2] [0] [of_int 4] [of_int 1]) _ eq_refl)|].
  eexists. split; [reflexivity|]. exact (C60_list_heads _ _ _ _ _ _ (lc_square 1 [of_int 1; of_int 2] [of_int 3]) _ eq_refl).
Qed.
(** ** a table at the first temperature and a list at each of the others: 7/2 and 7/4 *)
Inductive series_constructor : out series -> real -> list Z -> list Z -> list real -> list real -> list Z -> list (list real) -> Prop :=
| sc_coherent bnd int ts li es ss : series_constructor (make_coherent bnd int ts li es ss) rzero bnd int es ts li ss
| sc_coherent1 t0 bnd int es s : series_constructor (make_coherent1 t0 bnd int es s) rzero bnd int es [t0] [] [s]
| sc_function beta bnd int ts li es ss : series_constructor (make_function beta bnd int ts li es ss) beta bnd int es ts li ss
| sc_function1 t0 beta bnd int es s : series_constructor (make_function1 t0 beta bnd int es s) beta bnd int es [t0] [] [s].
Lemma more_opens c2 : forall ts li ss ls, more_temps c2 ts li ss = Val ls -> (length ss <= length ts)%nat -> Forall2 (fun l s => lB l = s) ls ss /\ Forall2 (fun l p => opens_list l (fst p) c2 (snd p) 0 0) ls (firstn (length ss) (combine ts li)).
Proof.
  induction ts as [|t ts IH]; intros li [|s ss] ls E L; cbn [more_temps] in E; try (cbn in L; lia); try (injection E as <-; split; constructor).
  destruct li as [|i li]; [discriminate|]. apply obind_val in E. destruct E as (r & E1 & E). injection E as <-. destruct (IH _ _ _ E1 ltac:(cbn in L; lia)) as (A & B).
  cbn [combine length firstn]. split; constructor; auto. cbn [fst snd]. intros mat mf mt. eexists. reflexivity.
Qed.
Theorem C60_series_heads : forall o c2 bnd int es ts li ss, series_constructor o c2 bnd int es ts li ss -> len ts < 2 ^ 32 ->
  forall x, o = Val x -> exists t0 ts' s0 ss', ts = t0 :: ts' /\ ss = s0 :: ss' /\ length ts' = length ss'
    /\ (curve_ok bnd int es s0 -> opens (se_first x) t0 c2 (len ts') 0 /\ tells (se_first x) bnd int es s0)
    /\ Forall2 (fun l s => lB l = s) (se_more x) ss' /\ Forall2 (fun l p => opens_list l (fst p) c2 (snd p) 0 0) (se_more x) (combine ts' li).
Proof.
  assert (O : forall bnd int es s0 C1 C2 L1 L2 t, make_tab1 C1 C2 L1 L2 bnd int es s0 = Val t -> curve_ok bnd int es s0 -> opens t C1 C2 L1 L2 /\ tells t bnd int es s0).
  { intros bnd int es s0 C1 C2 L1 L2 t E H. destruct (make_tab1_val _ _ _ _ _ _ _ _ _ E) as [-> _]. split; [|repeat split]. intros mat mf mt. unfold pr_tab1, pr_tab2. cbn [tbase tC1 tC2 tL1 tL2 tx ty]. rewrite <- app_assoc. eexists. f_equal. f_equal. f_equal.
    unfold tn2. cbn [tbnd]. now destruct H as (_ & _ & _ & _ & _ & _ & _ & H). }
  assert (G : forall t c2 bnd int es t0 ts' s0 ss' ls li, len (t0 :: ts') < 2 ^ 32 -> make_tab1 t0 c2 (Z.of_nat (length ts')) 0 bnd int es s0 = Val t ->
    (u32 (u32 (Z.of_nat (length ts')) + 1) =? Z.of_nat (length (s0 :: ss'))) = true ->
    more_temps c2 (firstn (Z.to_nat (u32 (Z.of_nat (length ts')))) ts') li ss' = Val ls ->
    length ts' = length ss' /\ (curve_ok bnd int es s0 -> opens t t0 c2 (len ts') 0 /\ tells t bnd int es s0)
    /\ Forall2 (fun l s => lB l = s) ls ss' /\ Forall2 (fun l p => opens_list l (fst p) c2 (snd p) 0 0) ls (combine ts' li)).
  { intros t c2 bnd int es t0 ts' s0 ss' ls li H E1 E2 E3. unfold len in H. cbn [length] in H, E2. rewrite (u32_id (Z.of_nat (length ts'))) in * by lia. rewrite u32_id in E2 by lia.
    assert (L : length ts' = length ss') by lia. split; [exact L|]. split; [exact (O _ _ _ _ _ _ _ _ _ E1)|].
    rewrite Nat2Z.id, firstn_all in E3. destruct (more_opens _ _ _ _ _ E3 ltac:(lia)) as (A & B). split; [exact A|].
    rewrite firstn_all2 in B by (rewrite combine_length; lia). exact B. }
  intros o c2 bnd int es ts li ss C H x E. destruct C.
  - destruct ts as [|t0 ts'], ss as [|s0 ss']; try discriminate E. cbn [make_coherent] in E. apply obind_val in E. destruct E as (t & E1 & E). cbv zeta in E.
    destruct (u32 _ =? _) eqn:E2; [|discriminate]. cbn [negb] in E. apply obind_val in E. destruct E as (ls & E3 & E). destruct (coherent_ok _); [|discriminate]. injection E as <-.
    exists t0, ts', s0, ss'. split; [reflexivity|]. split; [reflexivity|]. exact (G _ _ _ _ _ _ _ _ _ _ _ H E1 E2 E3).
  - unfold make_coherent1 in E. apply obind_val in E. destruct E as (t & E1 & E). cbv zeta in E. destruct (coherent_ok _); [|discriminate]. injection E as <-.
    exists t0, [], s, []. split; [reflexivity|]. split; [reflexivity|]. split; [reflexivity|]. split; [exact (O _ _ _ _ _ _ _ _ _ E1)|]. split; constructor.
  - destruct ts as [|t0 ts'], ss as [|s0 ss']; try discriminate E. cbn [make_function] in E. apply obind_val in E. destruct E as (t & E1 & E). cbv zeta in E.
    destruct (negb _); [discriminate|]. cbn [orb] in E.
    destruct (u32 (_ + 1) =? _) eqn:E2; [|discriminate]. cbn [negb] in E. apply obind_val in E. destruct E as (ls & E3 & E). destruct (betas_ok _); [|discriminate]. injection E as <-.
    exists t0, ts', s0, ss'. split; [reflexivity|]. split; [reflexivity|]. exact (G _ _ _ _ _ _ _ _ _ _ _ H E1 E2 E3).
  - unfold make_function1 in E. apply obind_val in E. destruct E as (t & E1 & E). cbv zeta in E. destruct (betas_ok _); [|discriminate]. injection E as <-.
    exists t0, [], s, []. split; [reflexivity|]. split; [reflexivity|]. split; [reflexivity|]. split; [exact (O _ _ _ _ _ _ _ _ _ E1)|]. split; constructor.
Qed.
Example C60_series_example : exists x, make_coherent [2; 3] [2; 5] [r_tiny; r_one; r_pi] [2; 4] [r_tiny; r_one; r_pi] [[r_one; r_pi; r_pi]; [r_one; r_pi; r_tiny]; [r_one; r_one; r_one]] = Val x
  /\ opens (se_first x) r_tiny rzero 2 0.
Proof.
  destruct C50_example_coherent as (x & E). exists x. split; [exact E|].
  destruct (C60_series_heads _ _ _ _ _ _ _ _ (sc_coherent [2; 3] [2; 5] [r_tiny; r_one; r_pi] [2; 4] [r_tiny; r_one; r_pi] [[r_one; r_pi; r_pi]; [r_one; r_pi; r_tiny]; [r_one; r_one; r_one]]) eq_refl x E) as (t0 & ts' & s0 & ss' & E1 & E2 & _ & O & _).
  injection E1 as <- <-. injection E2 as <- _. exact (proj1 (O (proj1 C60_example_table))).
Qed.
