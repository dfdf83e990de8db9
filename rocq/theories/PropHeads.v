(** PropHeads.v -- C57: the HEAD record of a printed section holds ZA, AWR and the flags and counts of its contents, in their columns. *)
From Coq Require Import ZifyBool ZifyNat.
From Verif Require Import Base Disco DiscoProofs Records RecordProofs RecordRT RecordSound Layout RealRound RealProofs Spec Normal LineFacts Sections SecSpec Codec SectionProofs
  SecKit CodecKit PropRecords PropRecords2 PropRecords3 ExKit Sec9 Sec4 Sec6 Sec33 Sec8 Sec7 Sec2 Sec32 Sec28 Sec451 Sec1 Sec33Proofs Sec9Proofs.
Open Scope Z_scope.

(** the first line of the printed section holds ZA and AWR in columns 1 to 22, the four integers in columns 23 to 66, MAT, MF, MT in columns 67 to 75 *)
Definition head_line {B} (k : skind B) (x : sect B) (mat a b c d : Z) : Prop :=
  0 < mat < 10000 -> good_ids x -> 0 < s_mt x < 1000 -> in_cols 11 a -> in_cols 11 b -> in_cols 11 c -> in_cols 11 d ->
  exists t, pr_section k x mat (k_mf k) = Val t
    /\ cont_in_columns (nth_line t 0) (of_int (s_za x)) (s_awr x) a b c d
    /\ carries mat (k_mf k) (s_mt x) (nth_line t 0).
Lemma head_says {B} (k : skind B) (x : sect B) mat a b c d : 0 < k_mf k < 100 -> k_ints k (s_body x) = (a, b, c, d) -> head_line k x mat a b c d.
Proof.
  intros Hf E Hm (Hz & Ha & _) Ht Ia Ib Ic Id. unfold pr_section. destruct (send_text mat (k_mf k) Hm Hf) as [-> _].
  eexists. split; [reflexivity|]. rewrite <- !app_assoc.
  set (rest := k_print _ _ _ _ _ _ ++ _). unfold head_cont. rewrite E. set (h := mkcont _ _ _ _ _ _).
  assert (G : good_tail mat (k_mf k) (s_mt x)) by (split; [|split]; unfold in_cols; cbn; lia).
  assert (K : okcont h) by (unfold okcont, h; cbn; repeat split; try (apply in_cols_fits; auto; lia); try apply okr_of_int; try apply endf_okr; auto; lia).
  pose proof (reads_cont h mat (k_mf k) (s_mt x) K (good_oktail _ _ _ G) rest 0) as R. split.
  - exact (C42_cont_columns _ _ _ _ _ _ R).
  - destruct (proj1 (C09_record_reads_consume_own_lines mat (k_mf k) (s_mt x)) _ _ _ R) as (n & B1 & B2 & B3). cbn [line] in B2. assert (n = 1%nat) by lia. subst n. exact (B3 0%nat ltac:(lia)).
Qed.
Ltac hd := intros; apply head_says; [cbn; lia|].
(** File 1: LRP, LFI, NLIB, NMOD of 451; LNU = 1 for a polynomial and 2 for a table in 452 and 456; LDG = 0 or 1 and LNU in 455; LFC = 1 and the
    number of tables in 458, LFC = 0 otherwise; LO = 1 and the number of photons or LO = 2 in 460 *)
Theorem C57_file1 mat :
  (forall x : sect descr, head_line sec_451 x mat (d_lrp (s_body x)) (d_lfi (s_body x)) (d_nlib (s_body x)) (d_nmod (s_body x)))
  /\ (forall za awr mt l, head_line sec_452 (mksect za awr mt (PolynomialMultiplicity l)) mat 0 1 0 0 /\ head_line sec_456 (mksect za awr mt (PolynomialMultiplicity l)) mat 0 1 0 0)
  /\ (forall za awr mt t, head_line sec_452 (mksect za awr mt (TabulatedMultiplicity t)) mat 0 2 0 0 /\ head_line sec_456 (mksect za awr mt (TabulatedMultiplicity t)) mat 0 2 0 0)
  /\ (forall za awr mt d m, head_line sec_455 (mksect za awr mt (d, m)) mat (match d with EnergyIndependent _ => 0 | EnergyDependent _ => 1 end)
        (match m with PolynomialMultiplicity _ => 1 | TabulatedMultiplicity _ => 2 end) 0 0)
  /\ (forall za awr mt l, head_line sec_458 (mksect za awr mt (ThermalPoint l)) mat 0 0 0 0 /\ head_line sec_458 (mksect za awr mt (Polynomial l)) mat 0 0 0 0)
  /\ (forall za awr mt n l ts, head_line sec_458 (mksect za awr mt (Sec1.Tabulated n l ts)) mat 0 1 0 n)
  /\ (forall za awr mt l, len l < 2 ^ 31 -> head_line sec_460 (mksect za awr mt (DiscretePhotons l)) mat 1 0 (len l) 0)
  /\ (forall za awr mt l, head_line sec_460 (mksect za awr mt (ContinuousPhotons l)) mat 2 0 0 0).
Proof.
  split; [hd; reflexivity|]. split; [intros; split; hd; reflexivity|]. split; [intros; split; hd; reflexivity|]. split; [intros; hd; destruct d, m; reflexivity|].
  split; [intros; split; hd; reflexivity|]. split; [hd; reflexivity|]. split; [|hd; reflexivity].
  hd. cbn [sec_460 k_ints s_body LO NG]. fold (len l). now rewrite i32_id by (apply int32_len; assumption).
Qed.
(** Files 2 and 32: the number of isotopes; LSSF and INT of 152 *)
Theorem C57_file2 mat :
  (forall x : sect (list resisotope), len (s_body x) < 2 ^ 31 -> head_line sec_2_151 x mat 0 0 (len (s_body x)) 0)
  /\ (forall x : sect (list cisotope), len (s_body x) < 2 ^ 31 -> head_line sec_32_151 x mat 0 0 (len (s_body x)) 0)
  /\ (forall x : sect shielding, head_line sec_2_152 x mat (if sh_lssf (s_body x) then 1 else 0) 0 0 (sh_interpolation (s_body x))).
Proof.
  split; [hd; cbn [sec_2_151 k_ints]; now rewrite isize_len by assumption|]. split; [hd; cbn [sec_32_151 k_ints]; now rewrite isize_len by assumption|].
  hd. cbn [sec_2_152 k_ints]. now destruct (sh_lssf (s_body x)).
Qed.
(** Files 3, 23, 27: zeros *)
Theorem C57_file3 mat (x : sect tab1) : head_line sec_3 x mat 0 0 0 0 /\ head_line sec_23 x mat 0 0 0 0 /\ head_line sec_27 x mat 0 0 0 0.
Proof. split; [|split]; hd; reflexivity. Qed.
(** Files 4, 5, 6, 26: LTT; the number of partial distributions; JP, LCT and the number of products *)
Theorem C57_file4 mat :
  (forall x : sect body4, head_line sec_4 x mat 0 (match dist_of4 (s_body x) with Isotropic4 => 0 | Legendre4 _ => 1 | Tabulated4 _ => 2 | Mixed4 _ _ => 3 end) 0 0)
  /\ (forall x : sect (list partial5), len (s_body x) < 2 ^ 31 -> head_line sec_5 x mat 0 0 (len (s_body x)) 0)
  /\ (forall x : sect body6, len (products6 (s_body x)) < 2 ^ 31 -> head_line sec_6 x mat (jp6 (s_body x)) (lct6 (s_body x)) (len (products6 (s_body x))) 0)
  /\ (forall x : sect (list (product law26)), len (s_body x) < 2 ^ 31 -> head_line sec_26 x mat 0 0 (len (s_body x)) 0).
Proof.
  split; [hd; reflexivity|]. split; [hd; cbn [sec_5 k_ints]; now rewrite isize_len by assumption|]. split; [hd; cbn [sec_6 k_ints]; now rewrite isize_len by assumption|].
  hd; cbn [sec_26 k_ints]; now rewrite isize_len by assumption.
Qed.
(** File 7: LTHR of 2 (1 coherent, 2 incoherent, 3 mixed), LAT and LASYM of 4, the number of elements of 451 *)
Theorem C57_file7 mat :
  (forall x : sect elastic, head_line sec_7_2 x mat (match s_body x with Coherent _ => 1 | Incoherent _ => 2 | Mixed _ _ => 3 end) 0 0 0)
  /\ (forall x : sect thermal, head_line sec_7_4 x mat 0 (th_lat (s_body x)) (th_lasym (s_body x)) 0)
  /\ (forall x : sect (list listr), len (s_body x) < 2 ^ 31 -> head_line sec_7_451 x mat (len (s_body x)) 0 0 0).
Proof.
  split; [hd; reflexivity|]. split; [hd; reflexivity|]. hd. cbn [sec_7_451 k_ints]. unfold NA. fold (len (s_body x)). unfold u32. rewrite Z.mod_small; [reflexivity|]. unfold len in *. lia.
Qed.
(** File 8: the number of incident energies (LE + 1) of 454 and 459; LIS, LISO, NST and the number of spectra of 457, NST = 1 when there is no decay mode *)
Theorem C57_file8 mat :
  (forall x : sect (list listr), head_line sec_8_454 x mat (len (s_body x)) 0 0 0 /\ head_line sec_8_459 x mat (len (s_body x)) 0 0 0)
  /\ (forall x : sect decay8, len (d_spectra (s_body x)) < 2 ^ 31 -> int32 (lN2 (d_modes (s_body x))) ->
        head_line sec_8_457 x mat (d_lis (s_body x)) (d_liso (s_body x)) (if Z.eq_dec (lN2 (d_modes (s_body x))) 0 then 1 else 0) (len (d_spectra (s_body x)))).
Proof.
  split; [intros; split; hd; reflexivity|]. hd. cbn [sec_8_457 k_ints]. unfold d_nst, NDK. rewrite i32_id by assumption. fold (len (d_spectra (s_body x))). unfold u32. rewrite (Z.mod_small (len _)) by (unfold len in *; lia).
  destruct (Z.eq_dec (lN2 (d_modes (s_body x))) 0) as [->|N]; [reflexivity|]. replace (lN2 (d_modes (s_body x)) =? 0) with false by lia. reflexivity.
Qed.
(** Files 9, 10, 12, 13, 14, 15, 28: LIS and the number of products; LO, LG and the number of photons or, for transition probabilities, two more than the number of
    transitions; the number of photons; LI, LTT, NK, NI; the number of subshells *)
Definition anisotropic14 (p : photon14) : Prop := match p with Isotropic14 _ _ => False | _ => True end.
Theorem C57_file9 mat :
  (forall x : sect levels, head_line sec_9 x mat (lv_lis (s_body x)) 0 (len (lv_products (s_body x))) 0 /\ head_line sec_10 x mat (lv_lis (s_body x)) 0 (len (lv_products (s_body x))) 0)
  /\ (forall za awr mt m, len (mu_partials m) < 2 ^ 31 -> head_line sec_12 (mksect za awr mt (Multiplicities m)) mat 1 0 (len (mu_partials m)) 0)
  /\ (forall za awr mt l lg, (lg = 1 \/ lg = 2) -> 0 < lN2 l < 2 ^ 31 - 2 -> len (lB l) = (lg + 1) * lN2 l -> head_line sec_12 (mksect za awr mt (TransitionProbabilities l)) mat 2 lg (lN2 l + 2) 0)
  /\ (forall x : sect multiplicities, len (mu_partials (s_body x)) < 2 ^ 31 -> head_line sec_13 x mat 0 0 (len (mu_partials (s_body x))) 0)
  /\ (forall za awr mt n, head_line sec_14 (mksect za awr mt (AllIsotropic n)) mat 1 0 n 0)
  /\ (forall za awr mt p ps q iso ani, p :: ps = iso ++ ani ++ [q] -> Forall (fun p => ~ anisotropic14 p) iso -> Forall anisotropic14 ani -> anisotropic14 q -> len (p :: ps) < 2 ^ 31 ->
        head_line sec_14 (mksect za awr mt (Photons p ps)) mat 0 (match q with Legendre14 _ => 1 | _ => 2 end) (len (p :: ps)) (len iso))
  /\ (forall x : sect (list partial15), len (s_body x) < 2 ^ 31 -> head_line sec_15 x mat 0 0 (len (s_body x)) 0)
  /\ (forall x : sect (list listr), head_line sec_28 x mat 0 0 (len (s_body x)) 0).
Proof.
  split; [intros; split; hd; reflexivity|]. split; [hd; cbn [sec_12 k_ints s_body LO12 L2_12 N1_12]; now rewrite isize_len by assumption|].
  split.
  { hd. cbn [sec_12 k_ints s_body LO12 L2_12 N1_12]. rewrite (i32_id (lN2 l + 2)) by (unfold int32; lia). unfold LG, npl. fold (len (lB l)). rewrite H1, Z.quot_mul by lia.
    now destruct H as [-> | ->]. }
  split; [hd; cbn [sec_13 k_ints]; now rewrite isize_len by assumption|]. split; [hd; reflexivity|]. split.
  { hd. cbn [sec_14 k_ints s_body LI14 LTT14 NK14 NI14 photons_of].
    assert (F : filter is_iso (p :: ps) = iso).
    { rewrite H, !filter_app. replace (filter is_iso iso) with iso; [replace (filter is_iso ani) with (@nil photon14)|].
      - destruct q; [contradiction|..]; cbn; apply app_nil_r.
      - clear -H1. induction H1 as [|a l A _ IH]; [reflexivity|]. cbn [filter]. destruct a; [contradiction|..]; exact IH.
      - clear -H0. induction H0 as [|a l A _ IH]; [reflexivity|]. cbn [filter]. destruct a; cbn [anisotropic14] in A; [|tauto..]. cbn [is_iso]. now rewrite <- IH. }
    assert (L : last ps p = q). { transitivity (last (p :: ps) p); [destruct ps; reflexivity|]. now rewrite H, app_assoc, last_last. }
    unfold NI14, NK14, photons_of. rewrite F, L. rewrite !isize_len; [|rewrite H in H3; unfold len in *; rewrite app_length in H3; lia|assumption]. destruct q; [contradiction|..]; reflexivity. }
  split; [hd; cbn [sec_15 k_ints]; now rewrite isize_len by assumption|]. hd. reflexivity.
Qed.
(** the covariance files: MTL and the number of subsections, LTT of 34, the number of matrices of 35, LIS and the number of levels of 40 *)
Theorem C57_file33 mat :
  (forall x : sect (list block), len (s_body x) < 2 ^ 31 -> head_line sec_31 x mat 0 0 0 (len (s_body x)))
  /\ (forall za awr mt mtl l, len l < 2 ^ 31 -> head_line sec_33 (mksect za awr mt (mtl, l)) mat 0 mtl 0 (len l))
  /\ (forall za awr mt ltt l, len l < 2 ^ 31 -> head_line sec_34 (mksect za awr mt (ltt, l)) mat 0 ltt 0 (len l))
  /\ (forall x : sect (list listr), len (s_body x) < 2 ^ 31 -> head_line sec_35 x mat 0 0 (len (s_body x)) 0)
  /\ (forall za awr mt lis l, len l < 2 ^ 31 -> head_line sec_40 (mksect za awr mt (lis, l)) mat lis 0 (len l) 0).
Proof.
  split; [hd; cbn [sec_31 k_ints]; now rewrite isize_len by assumption|]. split; [hd; cbn [sec_33 k_ints s_body fst snd]; now rewrite isize_len by assumption|].
  split; [hd; cbn [sec_34 k_ints s_body fst snd]; now rewrite isize_len by assumption|]. split; [hd; cbn [sec_35 k_ints]; now rewrite isize_len by assumption|].
  hd; cbn [sec_40 k_ints s_body fst snd]; now rewrite isize_len by assumption.
Qed.

(** non-trivial cases: a section 12 of two transitions, NS = NT + 2 = 4 *)
Example C57_transitions_example : exists t, pr_section sec_12 (mksect 92235 r_pi 51 (TransitionProbabilities (mklist r_pi rzero 0 0 2 [r_one; r_one; r_tiny; r_pi]))) 27 12 = Val t
  /\ cont_in_columns (nth_line t 0) (of_int 92235) r_pi 2 1 4 0.
Proof.
  destruct (proj1 (proj2 (proj2 (C57_file9 27))) 92235 r_pi 51 (mklist r_pi rzero 0 0 2 [r_one; r_one; r_tiny; r_pi]) 1) as (t & E & K & _); try (unfold in_cols; cbn; lia).
  - reflexivity.
  - split; [cbn; lia|]. split; [xt|]. vm_compute. intros K; discriminate K.
  - exists t. split; [exact E|exact K].
Qed.
