(** PropRound.v -- C73: printing sections whose numbers are not ENDF numbers.
    What is read back is the section with every number rounded to its printed form, and that
    prints the same text again. *)
From Coq Require Import ZifyBool ZifyNat.
From Verif Require Import Base Disco DiscoProofs Records RecordProofs RealRound RealProofs Spec Normal Sections SecSpec Tree Typed TypedSpec Classes Sec1 Sec1Spec Sec451 Sec451Spec SecKit Sec9 Sec9Spec Sec4 Sec4Spec Sec6 Sec6Spec Sec33 Sec33Spec Sec8 Sec8Spec Sec2 Sec2Spec Sec32 Sec32Spec Sec28 Sec28Proofs Sec7 Sec7Spec PropRecords PropRecords2 PropSec1 ExKit PropClasses Rounded RoundProofs RoundSecs.
Open Scope Z_scope.

(** ** the table of classes *)
Record rounds_class {B} (k : skind B) (md rep inv : B -> Prop) (rn : B -> B) : Prop := mkrc
  { rc_rep : forall b, md b -> rep (rn b);
    rc_inv : forall b, md b -> inv b -> inv (rn b);
    rc_print : forall awr b mat mf mt, ordinary awr -> md b -> k_print k (renorm awr) (rn b) mat mf mt = k_print k awr b mat mf mt;
    rc_nc : forall b, k_nc k (rn b) = k_nc k b;
    rc_ints : forall b, k_ints k (rn b) = k_ints k b;
    rc_for : forall mt b, allowed k mt b -> allowed k mt (rn b) }.

Lemma rc_of {B} mf fx own chk hm rd ints (pr : B -> Z -> Z -> Z -> text) nc md rep inv rn : rounds md rep inv rn pr nc ->
  (forall b, ints (rn b) = ints b) ->
  rounds_class (mkskind mf fx own chk hm rd ints pr nc) md rep inv rn.
Proof.
  intros R HI. split; cbn [k_print k_nc k_ints]; try apply R; auto.
  intros. now apply (rs_pr R).
Qed.

Lemma filter_rn l : length (filter is_iso (map rn_photon14 l)) = length (filter is_iso l).
Proof. induction l as [|p l IH]; [reflexivity|]. cbn. destruct p; cbn; congruence. Qed.
Lemma last_rn ps p : LTT_photon (last (map rn_photon14 ps) (rn_photon14 p)) = LTT_photon (last ps p).
Proof. induction ps as [|a ps IH]; [apply LTT_rn|]. destruct ps; [apply LTT_rn|]. exact IH. Qed.

Lemma lib_rounds c : rounds_class (skind_of c) (lib_mod c) (lib_rep c) (lib_inv c) (lib_rn c).
Proof.
  destruct c; cbn [sbody skind_of lib_mod lib_rep lib_inv lib_rn].
  - apply (rc_of _ _ _ _ _ _ _ _ _ _ _ _ _ rounds_descr). reflexivity.
  - apply (rc_of _ _ _ _ _ _ _ _ _ _ _ _ _ rounds_mult). now intros [].
  - apply (rc_of _ _ _ _ _ _ _ _ _ _ _ _ _ rounds_455). now intros [[] []].
  - apply (rc_of _ _ _ _ _ _ _ _ _ _ _ _ _ rounds_mult). now intros [].
  - apply (rc_of _ _ _ _ _ _ _ _ _ _ _ _ _ rounds_fission). now intros [].
  - apply (rc_of _ _ _ _ _ _ _ _ _ _ _ _ _ rounds_photons). intros [l|l]; [|reflexivity]. cbn [LO NG rn_photons]. now rewrite map_length.
  - apply (rc_of _ _ _ _ _ _ _ _ _ _ _ _ _ (rounds_some rounds_resisotope)). intros l. now rewrite isize_map.
  - apply (rc_of _ _ _ _ _ _ _ _ _ _ _ _ _ rounds_152). reflexivity.
  - apply (rc_of _ _ _ _ _ _ _ _ _ _ _ _ _ rounds_tab1). reflexivity.
  - apply (rc_of _ _ _ _ _ _ _ _ _ _ _ _ _ rounds_tab1). reflexivity.
  - apply (rc_of _ _ _ _ _ _ _ _ _ _ _ _ _ rounds_tab1). reflexivity.
  - (* 4 *) assert (R := rounds_dist4). split; unfold mod_body4, rep_body4, inv_body4, rn_body4; cbn [lct4 dist_of4 k_nc k_print k_ints sec_4 allowed k_for].
    + intros b H. now apply (rs_rep R).
    + intros b H [K1 K2]. split; [exact K1|now apply (rs_inv R)].
    + intros awr b mat mf mt Ha H. unfold pr_body4. cbn [lct4 dist_of4]. rewrite (rs_pr R) by exact H. f_equal.
      unfold pr_cont, pr_base. cbn [c1 c2 l1 l2 n1 n2]. rewrite write_rn by exact Ha. now destruct (dist_of4 b).
    + intros b. now rewrite (rs_nc R).
    + intros b. now destruct (dist_of4 b).
    + auto.
  - apply (rc_of _ _ _ _ _ _ _ _ _ _ _ _ _ (rounds_some rounds_p5)). intros l. now rewrite isize_map.
  - (* 6 *) assert (R := rounds_body6). split; try apply R.
    + intros awr b mat mf mt Ha H. now apply (rs_pr R).
    + intros b. cbn [k_ints sec_6 rn_body6 jp6 lct6 products6]. now rewrite isize_map.
    + intros mt b. cbn [allowed k_for sec_6]. unfold fission_only, rn_body6. cbn [products6]. intros H. apply Forall_map.
      eapply Forall_impl; [|exact H]. intros p. cbn [rn_product p_law]. now rewrite LAW6_rn.
  - apply (rc_of _ _ _ _ _ _ _ _ _ _ _ _ _ rounds_elastic). now intros [].
  - apply (rc_of _ _ _ _ _ _ _ _ _ _ _ _ _ rounds_thermal). reflexivity.
  - apply (rc_of _ _ _ _ _ _ _ _ _ _ _ _ _ rounds_7451). intros l. unfold NA. now rewrite map_length.
  - apply (rc_of _ _ _ _ _ _ _ _ _ _ _ _ _ rounds_yields). intros l. now rewrite map_length.
  - apply (rc_of _ _ _ _ _ _ _ _ _ _ _ _ _ rounds_decay8). intros d. cbn [rn_decay8 d_lis d_liso d_spectra]. now rewrite map_length.
  - apply (rc_of _ _ _ _ _ _ _ _ _ _ _ _ _ rounds_yields). intros l. now rewrite map_length.
  - apply (rc_of _ _ _ _ _ _ _ _ _ _ _ _ _ rounds_levels). intros d. cbn [rn_levels lv_lis lv_products]. now rewrite map_length.
  - apply (rc_of _ _ _ _ _ _ _ _ _ _ _ _ _ rounds_levels). intros d. cbn [rn_levels lv_lis lv_products]. now rewrite map_length.
  - apply (rc_of _ _ _ _ _ _ _ _ _ _ _ _ _ rounds_production). intros [m|l]; cbn [LO12 L2_12 N1_12 rn_production].
    + cbn [rn_multiplicities mu_partials]. now rewrite isize_map.
    + unfold LG, npl, renorm_list. cbn [lB lN2]. now rewrite map_length.
  - apply (rc_of _ _ _ _ _ _ _ _ _ _ _ _ _ rounds_multiplicities). intros m. cbn [rn_multiplicities mu_partials]. now rewrite isize_map.
  - apply (rc_of _ _ _ _ _ _ _ _ _ _ _ _ _ rounds_body14). intros [n|p ps]; [reflexivity|].
    unfold LI14, LTT14, NK14, NI14. cbn [rn_body14 photons_of]. rewrite last_rn. unfold isize.
    change (rn_photon14 p :: map rn_photon14 ps) with (map rn_photon14 (p :: ps)). now rewrite filter_rn, map_length.
  - apply (rc_of _ _ _ _ _ _ _ _ _ _ _ _ _ (rounds_some rounds_p15)). intros l. now rewrite isize_map.
  - apply (rc_of _ _ _ _ _ _ _ _ _ _ _ _ _ rounds_26). intros l. now rewrite isize_map.
  - apply (rc_of _ _ _ _ _ _ _ _ _ _ _ _ _ rounds_28). intros l. now rewrite map_length.
  - apply (rc_of _ _ _ _ _ _ _ _ _ _ _ _ _ (rounds_many rounds_block)). intros l. now rewrite isize_map.
  - apply (rc_of _ _ _ _ _ _ _ _ _ _ _ _ _ (rounds_some rounds_cisotope)). intros l. now rewrite isize_map.
  - apply (rc_of _ _ _ _ _ _ _ _ _ _ _ _ _ (rounds_flagged rounds_block)). intros l. cbn [rn_flagged fst snd]. now rewrite isize_map.
  - (* 34 *) assert (R := rounds_flagged rounds_block34). split; try apply R.
    + intros awr b mat mf mt Ha H. now apply (rs_pr R).
    + intros b. cbn [k_ints sec_34 rn_flagged fst snd]. now rewrite isize_map.
    + intros mt b. cbn [allowed k_for sec_34]. unfold rn_flagged. cbn [snd]. intros H. apply Forall_map.
      eapply Forall_impl; [|exact H]. intros p. unfold made_for. cbn [rn_block34 b34_nl b34_nl1 b34_blocks b34_mt1]. now rewrite isize_map.
  - apply (rc_of _ _ _ _ _ _ _ _ _ _ _ _ _ rounds_35). intros l. now rewrite isize_map.
  - apply (rc_of _ _ _ _ _ _ _ _ _ _ _ _ _ (rounds_flagged rounds_level)). intros l. cbn [rn_flagged fst snd]. now rewrite isize_map.
Qed.

(** ** sections *)
Lemma rn_prints c (x : sect (sbody c)) mat mf : ordinary_section c x ->
  pr_section (skind_of c) (rn_sect c x) mat mf = pr_section (skind_of c) x mat mf.
Proof.
  intros ((H1 & H2 & H3) & H4 & H5 & H6). assert (R := lib_rounds c). unfold pr_section, rn_sect. cbn [s_za s_awr s_mt s_body].
  rewrite (rc_print _ _ _ _ _ R) by auto. do 3 f_equal. unfold head_cont. cbn [s_za s_awr s_mt s_body].
  rewrite (rc_ints _ _ _ _ _ R). destruct (k_ints (skind_of c) (s_body x)) as [[[i j] k] l].
  unfold pr_cont, pr_base. cbn [c1 c2 l1 l2 n1 n2]. now rewrite write_rn.
Qed.
Lemma rn_good c (x : sect (sbody c)) : ordinary_section c x ->
  good_ids (rn_sect c x) /\ good_number (skind_of c) (rn_sect c x) /\ lib_rep c (s_body (rn_sect c x)) /\ lib_inv c (s_body (rn_sect c x)).
Proof.
  intros ((H1 & H2 & H3) & [H4 H4'] & H5 & H6). assert (R := lib_rounds c). unfold rn_sect, good_ids, good_number. cbn [s_za s_awr s_mt s_body].
  split; [split; [exact H1|split; [now apply ordinary_endf|]]|split; [split; [exact H4|]|split]].
  - assert (K := renorm_le rzero (s_awr x) ordinary_zero H2 H3). rewrite renorm_rzero in K. exact K.
  - now apply (rc_for _ _ _ _ _ R).
  - now apply (rc_rep _ _ _ _ _ R).
  - now apply (rc_inv _ _ _ _ _ R).
Qed.
Lemma rn_nc c (x : sect (sbody c)) : nc_section (skind_of c) (rn_sect c x) = nc_section (skind_of c) x.
Proof. unfold nc_section. f_equal. apply (rc_nc _ _ _ _ _ (lib_rounds c)). Qed.

(** printing, reading and printing again *)
Theorem C73_section : forall c (x : sect (sbody c)) mat, 0 < mat < 10000 -> ordinary_section c x ->
  let k := skind_of c in let y := rn_sect c x in
  exists body,
    pr_section k x mat (k_mf k) = Val (body ++ send_line mat (k_mf k) ++ [LF])
    /\ endf_lines mat (k_mf k) (s_mt x) (nc_section k x) body
    /\ (forall rest ln,
          parse_section k mat (mkst ((body ++ send_line mat (k_mf k) ++ [LF]) ++ rest) ln)
          = Ok y (mkst rest (ln + nc_section k x + 1)))
    /\ pr_section k y mat (k_mf k) = pr_section k x mat (k_mf k)
    /\ nc_section k y = nc_section k x.
Proof.
  intros c x mat Hm H k y. destruct (rn_good c x H) as (G1 & G2 & G3 & G4).
  destruct (so_round_trip _ _ _ (lib_core c) (rn_sect c x) mat Hm G1 G2 G3 G4) as (body & P & L & R).
  fold k y in P, L, R. assert (N : nc_section k y = nc_section k x) by apply rn_nc. rewrite N in L, R.
  assert (E : pr_section k y mat (k_mf k) = pr_section k x mat (k_mf k)) by now apply rn_prints.
  exists body. rewrite <- E. auto.
Qed.

(** whatever was read from a text, if its numbers are ordinary: printing it and reading it again *)
Theorem C73_read_section : forall c h mat s (x : sect (sbody c)) s', 0 < mat < 10000 ->
  Sections.rd_section (skind_of c) h mat s = Ok x s' ->
  s_za x < 10 ^ 7 -> s_mt x < 1000 -> (forall n, k_fix (skind_of c) = Some n -> s_mt x = n) -> ordinary (s_awr x) -> lib_mod c (s_body x) ->
  let k := skind_of c in
  exists text y, pr_section k x mat (k_mf k) = Val text
    /\ (forall rest ln, parse_section k mat (mkst (text ++ rest) ln) = Ok y (mkst rest (ln + nc_section k x + 1)))
    /\ pr_section k y mat (k_mf k) = Val text.
Proof.
  intros c h mat s x s' Hm Hr Hz Hn Hf Ha Hb k.
  destruct (so_sound _ _ _ (lib_core c) h mat s x s' Hr) as (_ & _ & _ & _ & Z1 & A1 & N1 & I1 & F1).
  assert (O : ordinary_section c x).
  { split; [split; [lia|split; [exact Ha|exact A1]]|]. split; [|split; [exact Hb|exact I1]]. split; [|exact F1].
    destruct (k_fix (skind_of c)) as [n|] eqn:E; [now apply Hf|]. specialize (N1 eq_refl). lia. }
  destruct (C73_section c x mat Hm O) as (body & P & _ & R & E & _). fold k in P, R, E.
  exists (body ++ send_line mat (k_mf k) ++ [LF]), (rn_sect c x). split; [exact P|]. split; [exact R|]. rewrite E. exact P.
Qed.

(** ** files, materials and tapes *)
Lemma oconcat_ext {A} (f g : A -> pout) l : Forall (fun a => f a = g a) l -> oconcat f l = oconcat g l.
Proof. induction 1 as [|a l H _ IH]; [reflexivity|]. unfold oconcat in *. cbn [fold_right]. now rewrite H, IH. Qed.
Lemma oconcat_map {A B} (f : B -> pout) (h : A -> B) l : oconcat f (map h l) = oconcat (fun a => f (h a)) l.
Proof. induction l as [|a l IH]; [reflexivity|]. unfold oconcat in *. cbn [map fold_right]. now rewrite IH. Qed.
Lemma fst_kept {A B} (h : A -> B) (l : list (Z * A)) : map fst (map (fun p => (fst p, h (snd p))) l) = map fst l.
Proof. rewrite map_map. now apply map_ext. Qed.

Lemma rn_file_good f : ordinary_file f -> good_file (rn_file f).
Proof.
  intros (H1 & H2 & H3). unfold good_file, good_yfile, rn_file. cbn [yf_secs yf_mf].
  split; [destruct (yf_secs f); [easy|discriminate]|]. split; [now rewrite fst_kept|].
  apply Forall_map. revert H3. apply Forall_impl. intros [n x] (E & F & G). cbn [fst snd] in *.
  split; [exact E|]. split; [exact F|]. exact (rn_good _ _ G).
Qed.
Lemma rn_file_prints f mat : ordinary_file f -> pr_yfile skind_of (rn_file f) mat = pr_yfile skind_of f mat.
Proof.
  intros (H1 & H2 & H3). unfold pr_yfile, rn_file. cbn [yf_secs yf_mf]. destruct (yf_mf f =? 30); [reflexivity|]. f_equal.
  rewrite oconcat_map. apply oconcat_ext. revert H3. apply Forall_impl. intros [n x] (E & F & G). cbn [fst snd] in *.
  unfold pr_any, rn_ysec. cbn [projT1 projT2]. now apply rn_prints.
Qed.
Theorem C73_file : forall f mat, 0 < mat < 10000 -> ordinary_file f ->
  exists text n, pr_yfile skind_of f mat = Val text
    /\ (forall rest ln, parse_yfile skind_of lib_class (yf_mf f) (mkst (text ++ rest) ln) = Ok (rn_file f) (mkst rest (ln + n)))
    /\ pr_yfile skind_of (rn_file f) mat = Val text.
Proof.
  intros f mat Hm H. destruct (C31_library (rn_file f) mat Hm (rn_file_good f H)) as (t & n & P & R).
  exists t, n. split; [now rewrite <- (rn_file_prints f mat H)|]. split; [exact R|exact P].
Qed.

Lemma rn_material_good m : ordinary_material m -> good_material (rn_material m).
Proof.
  intros (H0 & H1 & H2 & H3). unfold good_material, good_ymat, rn_material. cbn [ym_files ym_mat].
  split; [exact H0|]. split; [destruct (ym_files m); [easy|discriminate]|]. split; [now rewrite fst_kept|].
  apply Forall_map. revert H3. apply Forall_impl. intros [n x] (E & G). cbn [fst snd] in *.
  split; [exact E|]. now apply rn_file_good.
Qed.
Lemma rn_material_prints m : ordinary_material m -> pr_ymat skind_of (rn_material m) = pr_ymat skind_of m.
Proof.
  intros (H0 & H1 & H2 & H3). unfold pr_ymat, rn_material. cbn [ym_files ym_mat]. f_equal.
  rewrite oconcat_map. apply oconcat_ext. revert H3. apply Forall_impl. intros [n x] (E & G). cbn [fst snd] in *.
  now apply rn_file_prints.
Qed.
Theorem C73_material : forall m, ordinary_material m ->
  exists text n, pr_ymat skind_of m = Val text
    /\ (forall rest ln, parse_ymat skind_of lib_class (mkst (text ++ rest) ln) = Ok (rn_material m) (mkst rest (ln + n)))
    /\ pr_ymat skind_of (rn_material m) = Val text.
Proof.
  intros m H. destruct (C32_library_material (rn_material m) (rn_material_good m H)) as (t & n & P & R).
  exists t, n. split; [now rewrite <- (rn_material_prints m H)|]. split; [exact R|exact P].
Qed.

Lemma rn_tape_good t : ordinary_tape t -> good_tape (rn_tape t).
Proof.
  intros (H0 & H1 & H2 & H3 & H4 & H5). unfold good_tape, good_ytape, rn_tape. cbn [yt_id yt_mats].
  split; [exact H0|]. split; [exact H1|]. split; [exact H2|]. split; [destruct (yt_mats t); [easy|discriminate]|].
  split; [unfold len in *; now rewrite map_length|].
  apply Forall_map. revert H5. apply Forall_impl. exact rn_material_good.
Qed.
Lemma rn_tape_prints t : ordinary_tape t -> pr_ytape skind_of (rn_tape t) = pr_ytape skind_of t.
Proof.
  intros (_ & _ & _ & _ & _ & H). unfold pr_ytape, rn_tape. cbn [yt_id yt_mats]. do 2 f_equal.
  rewrite oconcat_map. apply oconcat_ext. revert H. apply Forall_impl. exact rn_material_prints.
Qed.
Theorem C73_tape : forall t, ordinary_tape t ->
  exists text n, pr_ytape skind_of t = Val text
    /\ (forall rest ln, rd_ytape skind_of lib_class (mkst (text ++ rest) ln) = Ok (rn_tape t) (mkst rest (ln + n)))
    /\ pr_ytape skind_of (rn_tape t) = Val text.
Proof.
  intros t H. destruct (C32_library_tape (rn_tape t) (rn_tape_good t H)) as (u & n & P & R).
  exists u, n. split; [now rewrite <- (rn_tape_prints t H)|]. split; [exact R|exact P].
Qed.

(** Rounding is done once: an ENDF number is its own rounded form, so what was printed and
    read is left alone by the next print and read. *)
Theorem C73_once : forall x, ordinary x -> endf_real (renorm x) /\ renorm (renorm x) = renorm x
  /\ read_real (write_real x) = Some (renorm x) /\ write_real (renorm x) = write_real x.
Proof.
  intros x H. destruct (renorm_ok x (om x H)) as (R & _ & W). split; [now apply ordinary_endf|]. split; [|now split].
  unfold renorm at 1. rewrite W, R. reflexivity.
Qed.

(** ** a tape with 1/3 as a multiplicity and as a mass meets the hypotheses, and is changed *)
Definition ex_third : ysec sclass sbody := existT _ K1_452 (mksect 92235 r_third 452 (PolynomialMultiplicity (xlist 0 0 0 [r_one; r_third]))).
Definition ex_third_tape : ytape := mkytape (mktpid (blanks 66) 0) [mkymat 9228 [(1, mkyfile 1 [(452, ex_third)])]].
Lemma ordinary_third : ordinary r_third.
Proof. right. vm_compute. repeat split; congruence. Qed.
Lemma ordinary_one : ordinary r_one.
Proof. right. vm_compute. repeat split; congruence. Qed.
Lemma ordinary_pi : ordinary r_pi.
Proof. right. vm_compute. repeat split; congruence. Qed.
Example C73_example : ordinary_tape ex_third_tape /\ renorm r_third <> r_third /\ rn_tape ex_third_tape <> ex_third_tape.
Proof.
  assert (N : renorm r_third <> r_third) by (vm_compute; discriminate).
  split; [|split; [exact N|]].
  - split; [reflexivity|]. split; [cbn [yt_id ex_third_tape tptext]; intros K; apply repeat_spec in K; discriminate K|].
    split; [reflexivity|]. split; [discriminate|]. split; [reflexivity|]. constructor; [|constructor].
    split; [cbn; lia|]. split; [discriminate|]. split; [exact Logic.I|]. constructor; [|constructor]. split; [reflexivity|].
    split; [discriminate|]. split; [exact Logic.I|]. constructor; [|constructor]. split; [reflexivity|]. split; [reflexivity|].
    unfold ordinary_ysec. cbn [snd ex_third projT1 projT2].
    destruct C37_example_452 as ((_ & G & _ & I) & _).
    split; [split; [cbn; lia|split; [exact ordinary_third|vm_compute; discriminate]]|].
    split; [exact G|]. split; [|exact I].
    cbn [s_body lib_mod mod_mult]. split; [exact ordinary_pi|]. split; [exact ordinary_one|].
    cbn [xlist lL1 lL2 lN2 lB]. split; [now vm_compute|]. split; [now vm_compute|]. split; [now vm_compute|]. split; [now vm_compute|].
    constructor; [exact ordinary_one|constructor; [exact ordinary_third|constructor]].
  - intros K. apply (f_equal (fun t => map (fun m => map (fun p => map (fun q => s_awr (projT2 (snd q))) (yf_secs (snd p))) (ym_files m)) (yt_mats t))) in K.
    cbn [map ex_third_tape rn_tape rn_material rn_file rn_ysec rn_sect yt_mats ym_files yf_secs snd fst ex_third projT1 projT2 s_awr] in K.
    apply (f_equal (fun l => hd rzero (hd [] (hd [] l)))) in K. cbn [hd] in K. exact (N K).
Qed.
