(** Rounded.v -- sections whose numbers need not be ENDF numbers.
    [ordinary]: zero, or a double between about 10^-297 and 10^298 in magnitude;
    [mod_...]: [rep_...] of the *Spec.v files with ordinary numbers instead of ENDF numbers (the
    integers still fit their columns);
    [rn_...]: the same section with every number replaced by the one its printed form reads as. *)
From Verif Require Import Base Disco Records RealRound RealProofs Spec Normal Sections SecSpec Typed Classes Sec1 Sec1Spec Sec451 Sec451Spec SecKit Sec9 Sec9Spec Sec4 Sec4Spec Sec6 Sec6Spec Sec33 Sec33Spec Sec8 Sec8Spec Sec2 Sec2Spec Sec32 Sec32Spec Sec28 Sec7 Sec7Spec PropClasses.
Open Scope Z_scope.
Definition ordinary (x : real) : Prop :=
  (rman x = 0 /\ rexp x = 0) \/ (2 ^ 52 <= rman x < 2 ^ 53 /\ -1036 <= rexp x <= 936).
Definition mod_cont (c : cont) : Prop := ordinary (c1 c) /\ ordinary (c2 c) /\ ints_fit c.
Definition mod_list (l : listr) : Prop :=
  ordinary (lC1 l) /\ ordinary (lC2 l) /\ in_cols 11 (lL1 l) /\ in_cols 11 (lL2 l)
  /\ in_cols 11 (lN2 l) /\ in_cols 11 (Z.of_nat (length (lB l))) /\ Forall ordinary (lB l).
(** ** records *)
Definition mod_tab2 (t : tab2) : Prop :=
  ordinary (tC1 t) /\ ordinary (tC2 t) /\ in_cols 11 (tL1 t) /\ in_cols 11 (tL2 t)
  /\ in_cols 11 (Z.of_nat (length (tbnd t)))
  /\ Forall (in_cols 11) (tbnd t) /\ Forall (in_cols 11) (tint t).
Definition mod_tab1 (t : tab1) : Prop :=
  mod_tab2 (tbase t) /\ Forall ordinary (tx t) /\ Forall ordinary (ty t).
Definition mod_seq {C} (modc : C -> Prop) (q : iseq C) : Prop :=
  mod_tab2 (istab q) /\ last (tbnd (istab q)) 0 < 2 ^ 31 /\ Forall modc (isrec q).
(** ** Sec1Spec.v *)
Definition mod_mult (m : mult) : Prop :=
  match m with PolynomialMultiplicity l => mod_list l | TabulatedMultiplicity t => mod_tab1 t end.
Definition mod_decay_data (d : decay) : Prop :=
  match d with
  | EnergyIndependent l => mod_list l
  | EnergyDependent q => mod_seq mod_list q
  end.
Definition mod_fission_q (q : fission_q) : Prop :=
  match q with
  | ThermalPoint l | Polynomial l => mod_list l /\ len (lB l) < 2 ^ 31
  | Sec1.Tabulated _ l r => mod_list l /\ Forall mod_tab1 (somes r)
  end.
Definition mod_photons (p : photons) : Prop :=
  match p with
  | DiscretePhotons l => Forall mod_tab1 l
  | ContinuousPhotons l => mod_list l
  end.
(** ** Sec451Spec.v *)
Definition mod_descr (b : descr) : Prop :=
  mod_cont (d_c0 b) /\ mod_cont (d_c1 b) /\ mod_cont (d_c2 b)
  /\ Forall (fun t => length t = 66%nat /\ noLF t) (d_text b) /\ Forall rep_dir (d_index b).
(** ** Sec9Spec.v *)
Definition mod_levels (b : levels) : Prop := Forall mod_tab1 (lv_products b).
Definition mod_multiplicities (m : multiplicities) : Prop :=
  (forall t, mu_total m = Some t -> mod_tab1 t) /\ Forall mod_tab1 (mu_partials m).
Definition mod_production (p : production) : Prop :=
  match p with Multiplicities m => mod_multiplicities m | TransitionProbabilities l => mod_list l end.
Definition mod_p15 (p : partial15) : Prop := mod_tab1 (p15_prob p) /\ mod_seq mod_tab1 (p15_spec p).
Definition mod_photon14 (p : photon14) : Prop :=
  match p with
  | Isotropic14 eg es => ordinary eg /\ ordinary es
  | Legendre14 q => mod_seq mod_list q
  | Tabulated14 q => mod_seq mod_tab1 q
  end.
Definition mod_body14 (b : body14) : Prop := Forall mod_photon14 (photons_of b) /\ len (photons_of b) < 2 ^ 31.
(** ** Sec4Spec.v *)
Definition mod_dist4 (d : dist4) : Prop :=
  match d with
  | Isotropic4 => True
  | Legendre4 q => mod_seq mod_list q
  | Tabulated4 q => mod_seq mod_tab1 q
  | Mixed4 q r => mod_seq mod_list q /\ mod_seq mod_tab1 r
  end.
Definition mod_body4 (b : body4) : Prop := mod_dist4 (dist_of4 b).
Definition mod_dist5 (d : dist5) : Prop :=
  match d with
  | TabulatedSpectrum q => mod_seq mod_tab1 q
  | GeneralEvaporation a b | Watt a b => mod_tab1 a /\ mod_tab1 b
  | MaxwellianFission t | Evaporation t | MadlandNix t => mod_tab1 t
  end.
Definition mod_p5 (p : partial5) : Prop := mod_tab1 (p5_prob p) /\ mod_dist5 (p5_dist p).
(** ** Sec6Spec.v *)
Definition mod_seqw {C} (modc : C -> Prop) (q : iseq C) : Prop :=
  mod_tab2 (istab q) /\ Forall modc (isrec q).
Definition mod_law6 (d : law6) : Prop :=
  match d with
  | Continuum q | TwoBody q | ChargedElastic q => mod_seqw mod_list q
  | NBody c => mod_cont c
  | LabAngle q => mod_seq (mod_seq mod_tab1) q
  | _ => True
  end.
Definition mod_product {L} (modc : L -> Prop) (p : product L) : Prop := mod_tab1 (p_mult p) /\ modc (p_law p).
Definition mod_body6 (b : body6) : Prop := Forall (mod_product mod_law6) (products6 b).
Definition mod_law26 (d : law26) : Prop :=
  match d with
  | Continuum26 q => mod_seqw mod_list q
  | TwoBody26 q => mod_seq mod_list q
  | Transfer26 t => mod_tab1 t
  end.
(** ** Sec7Spec.v *)
Definition mod_series (x : series) : Prop := mod_tab1 (se_first x) /\ Forall mod_list (se_more x).
Definition mod_elastic (e : elastic) : Prop :=
  match e with Coherent x => mod_series x | Incoherent t => mod_tab1 t | Mixed x t => mod_series x /\ mod_tab1 t end.
Definition mod_inelastic (w : inelastic) : Prop := match w with Analytical => True | Tabulated q => mod_seq mod_series q end.
Definition mod_thermal (x : thermal) : Prop :=
  mod_list (th_constants x) /\ mod_inelastic (th_law x) /\ mod_tab1 (th_principal x)
  /\ Forall (fun o => forall t, o = Some t -> mod_tab1 t) (th_secondary x).
(** ** Sec8Spec.v *)
Definition mod_spectrum8 (x : spectrum8) : Prop :=
  mod_list (sp_data x) /\ Forall mod_list (sp_discrete x) /\ (forall t, sp_cont x = Some t -> mod_tab1 t).
Definition mod_decay8 (d : decay8) : Prop := mod_list (d_energies d) /\ mod_list (d_modes d) /\ Forall mod_spectrum8 (d_spectra d).
(** ** Sec33Spec.v *)
Definition mod_explicit (e : explicit) : Prop := mod_list (list_of e).
Definition mod_derived (d : derived) : Prop := mod_list (list_ofd d).
Definition mod_block (b : block) : Prop :=
  Z.abs (xmf1 b) < 10 ^ 7 /\ Z.abs (xlfs1 b) < 10 ^ 7 /\ Forall mod_derived (b_nc b) /\ Forall mod_explicit (b_ni b).
Definition mod_legblock (b : legblock) : Prop := Forall mod_explicit (lg_data b).
Definition mod_block34 (b : block34) : Prop := Forall mod_legblock (b34_blocks b).
Definition mod_level (v : level) : Prop := ordinary (lv_qm v) /\ ordinary (lv_qi v) /\ Forall mod_block (lv_reactions v).
Definition mod_flagged {A} (modc : A -> Prop) (b : Z * list A) : Prop := Forall modc (snd b).
(** ** Sec2Spec.v *)
Definition mod_152 (x : shielding) : Prop := mod_list (sh_data x).
Definition mod_resolved (x : resolved) : Prop := ordinary (rs_spi x) /\ ordinary (rs_ap x) /\ Forall mod_list (rs_lvalues x).
Definition mod_unresolved {A} (modc : A -> Prop) (x : unresolved A) : Prop :=
  ordinary (un_spi x) /\ ordinary (un_ap x) /\ Forall modc (un_lvalues x).
Definition mod_jgroup (x : jgroup) : Prop := ordinary (jg_awri x) /\ Forall mod_list (jg_j x).
Definition mod_widths (x : widths) : Prop := mod_list (wd_energies x) /\ Forall mod_jgroup (wd_lvalues x).
Definition mod_background (b : background) : Prop :=
  match b with
  | NoBackground => True
  | TableBackground re im => mod_tab1 re /\ mod_tab1 im
  | SammyBackground ed eu r0 r1 r2 s0 s1 => Forall ordinary [ed; eu; r0; r1; r2; s0; s1]
  | FrohnerBackground ed eu r0 s0 ga => Forall ordinary [ed; eu; r0; s0; ga]
  end.
Definition mod_group (x : group) : Prop :=
  mod_list (gp_channels x) /\ mod_list (gp_parameters x) /\ forall e, In (Some e) (gp_background x) -> mod_background (en_kind e).
Definition mod_rml (x : rml) : Prop := mod_list (rm_pairs x) /\ Forall mod_group (rm_groups x).
Definition mod_params (p : params) : Prop :=
  match p with
  | Special spi ap => ordinary spi /\ ordinary ap
  | SLBW x | MLBW x | ReichMoore x => mod_resolved x
  | RMatrix x => mod_rml x
  | CaseA x => mod_unresolved mod_list x
  | CaseB x => mod_widths x
  | CaseC x => mod_unresolved mod_jgroup x
  end.
Definition mod_range (x : range) : Prop :=
  ordinary (rg_el x) /\ ordinary (rg_eh x) /\ mod_params (rg_params x) /\ forall t, rg_radius x = Some t -> mod_tab1 t.
Definition mod_resisotope (x : resisotope) : Prop :=
  Z.abs (ri_zai x) < 10 ^ 7 /\ ordinary (ri_abn x) /\ Forall mod_range (ri_ranges x)
  /\ (ri_lfw x = true -> Forall (fun r => ~ is_A r) (ri_ranges x)).
(** ** Sec32Spec.v *)
Definition mod_limited (x : limited) : Prop :=
  ordinary (lm_spi x) /\ ordinary (lm_ap x) /\ (forall d, lm_dap x = Some d -> ordinary d) /\ Forall mod_list (lm_lvalues x).
Definition mod_short_rml (x : short_rml) : Prop := Forall mod_list (sr_groups x) /\ mod_list (sr_matrix x).
Definition mod_general {D S} (modD : D -> Prop) (modS : S -> Prop) (x : general D S) : Prop :=
  ordinary (ge_awri x) /\ ordinary (ge_spi x) /\ ordinary (ge_ap x) /\ (forall d, ge_dap x = Some d -> modD d)
  /\ Forall modS (ge_short x) /\ Forall mod_explicit (ge_long x).
Definition mod_spin32 (x : spin32) : Prop := mod_list (sg_channels x) /\ mod_list (sg_parameters x).
Definition mod_rml32 (x : rml32) : Prop := mod_list (r32_pairs x) /\ Forall mod_spin32 (r32_groups x).
Definition mod_compact {D U} (modD : D -> Prop) (modU : U -> Prop) (x : compact D U) : Prop :=
  ordinary (co_spi x) /\ ordinary (co_ap x) /\ in_cols 11 (co_l1 x) /\ in_cols 11 (co_n1 x)
  /\ (forall d, co_dap x = Some d -> modD d) /\ modU (co_unc x) /\ rep_corr (co_corr x).
Definition mod_unres32 (x : unres32) : Prop :=
  ordinary (u32_spi x) /\ ordinary (u32_ap x) /\ Forall mod_list (u32_lvalues x) /\ mod_list (u32_matrix x).
Definition mod_cparams (p : cparams) : Prop :=
  match p with
  | LimitedSLBW x | LimitedMLBW x => mod_limited x
  | GeneralSLBW x | GeneralMLBW x => mod_general ordinary mod_list x
  | GeneralRM x => mod_general mod_list mod_list x
  | GeneralRML x => mod_general none mod_short_rml x
  | CompactSLBW x | CompactMLBW x => mod_compact ordinary mod_list x
  | CompactRM x => mod_compact mod_list mod_list x
  | CompactRML x => mod_compact none mod_rml32 x
  | Unresolved32 x => mod_unres32 x
  end.
Definition mod_crange (x : crange) : Prop :=
  ordinary (cr_el x) /\ ordinary (cr_eh x) /\ mod_cparams (cr_params x) /\ forall l, cr_radius x = Some l -> Forall mod_explicit l.
Definition mod_cisotope (x : cisotope) : Prop := ordinary (ci_zai x) /\ ordinary (ci_abn x) /\ Forall mod_crange (ci_ranges x).
(** ** the rounded section *)
Definition rn_seq {C} (rn : C -> C) (q : iseq C) : iseq C := mkiseq (renorm_tab2 (istab q)) (map rn (isrec q)).
Definition rn_mult (m : mult) : mult :=
  match m with PolynomialMultiplicity l => PolynomialMultiplicity (renorm_list l) | TabulatedMultiplicity t => TabulatedMultiplicity (renorm_tab1 t) end.
Definition rn_decay_data (d : decay) : decay :=
  match d with EnergyIndependent l => EnergyIndependent (renorm_list l) | EnergyDependent q => EnergyDependent (rn_seq renorm_list q) end.
Definition rn_fission_q (q : fission_q) : fission_q :=
  match q with
  | ThermalPoint l => ThermalPoint (renorm_list l)
  | Polynomial l => Polynomial (renorm_list l)
  | Sec1.Tabulated n l r => Sec1.Tabulated n (renorm_list l) (map (option_map renorm_tab1) r)
  end.
Definition rn_photons (p : photons) : photons :=
  match p with DiscretePhotons l => DiscretePhotons (map renorm_tab1 l) | ContinuousPhotons l => ContinuousPhotons (renorm_list l) end.
Definition rn_descr (b : descr) : descr :=
  mkdescr (d_lrp b) (d_lfi b) (d_nlib b) (d_nmod b) (renorm_cont (d_c0 b)) (renorm_cont (d_c1 b)) (renorm_cont (d_c2 b)) (d_text b) (d_index b).
Definition rn_levels (b : levels) : levels := mklevels (lv_lis b) (map renorm_tab1 (lv_products b)).
Definition rn_multiplicities (m : multiplicities) : multiplicities :=
  mkmults (option_map renorm_tab1 (mu_total m)) (map renorm_tab1 (mu_partials m)).
Definition rn_production (p : production) : production :=
  match p with Multiplicities m => Multiplicities (rn_multiplicities m) | TransitionProbabilities l => TransitionProbabilities (renorm_list l) end.
Definition rn_p15 (p : partial15) : partial15 := mkp15 (renorm_tab1 (p15_prob p)) (rn_seq renorm_tab1 (p15_spec p)).
Definition rn_photon14 (p : photon14) : photon14 :=
  match p with
  | Isotropic14 eg es => Isotropic14 (renorm eg) (renorm es)
  | Legendre14 q => Legendre14 (rn_seq renorm_list q)
  | Tabulated14 q => Tabulated14 (rn_seq renorm_tab1 q)
  end.
Definition rn_body14 (b : body14) : body14 :=
  match b with AllIsotropic nk => AllIsotropic nk | Photons p ps => Photons (rn_photon14 p) (map rn_photon14 ps) end.
Definition rn_dist4 (d : dist4) : dist4 :=
  match d with
  | Isotropic4 => Isotropic4
  | Legendre4 q => Legendre4 (rn_seq renorm_list q)
  | Tabulated4 q => Tabulated4 (rn_seq renorm_tab1 q)
  | Mixed4 q r => Mixed4 (rn_seq renorm_list q) (rn_seq renorm_tab1 r)
  end.
Definition rn_body4 (b : body4) : body4 := mkbody4 (lct4 b) (rn_dist4 (dist_of4 b)).
Definition rn_dist5 (d : dist5) : dist5 :=
  match d with
  | TabulatedSpectrum q => TabulatedSpectrum (rn_seq renorm_tab1 q)
  | GeneralEvaporation a b => GeneralEvaporation (renorm_tab1 a) (renorm_tab1 b)
  | Watt a b => Watt (renorm_tab1 a) (renorm_tab1 b)
  | MaxwellianFission t => MaxwellianFission (renorm_tab1 t)
  | Evaporation t => Evaporation (renorm_tab1 t)
  | MadlandNix t => MadlandNix (renorm_tab1 t)
  end.
Definition rn_p5 (p : partial5) : partial5 := mkp5 (renorm_tab1 (p5_prob p)) (rn_dist5 (p5_dist p)).
Definition rn_law6 (d : law6) : law6 :=
  match d with
  | Continuum q => Continuum (rn_seq renorm_list q)
  | TwoBody q => TwoBody (rn_seq renorm_list q)
  | ChargedElastic q => ChargedElastic (rn_seq renorm_list q)
  | NBody c => NBody (renorm_cont c)
  | LabAngle q => LabAngle (rn_seq (rn_seq renorm_tab1) q)
  | Elsewhere _ | UnknownLaw | DiscreteIso | Recoil => d
  end.
Definition rn_product {L} (rn : L -> L) (p : product L) : product L := mkproduct (renorm_tab1 (p_mult p)) (rn (p_law p)).
Definition rn_body6 (b : body6) : body6 := mkbody6 (jp6 b) (lct6 b) (map (rn_product rn_law6) (products6 b)).
Definition rn_law26 (d : law26) : law26 :=
  match d with
  | Continuum26 q => Continuum26 (rn_seq renorm_list q)
  | TwoBody26 q => TwoBody26 (rn_seq renorm_list q)
  | Transfer26 t => Transfer26 (renorm_tab1 t)
  end.
Definition rn_series (x : series) : series := mkseries (renorm_tab1 (se_first x)) (map renorm_list (se_more x)).
Definition rn_elastic (e : elastic) : elastic :=
  match e with Coherent x => Coherent (rn_series x) | Incoherent t => Incoherent (renorm_tab1 t) | Mixed x t => Mixed (rn_series x) (renorm_tab1 t) end.
Definition rn_inelastic (w : inelastic) : inelastic := match w with Analytical => Analytical | Tabulated q => Tabulated (rn_seq rn_series q) end.
Definition rn_thermal (x : thermal) : thermal :=
  mkthermal (th_lat x) (th_lasym x) (renorm_list (th_constants x)) (rn_inelastic (th_law x)) (renorm_tab1 (th_principal x))
    (map (option_map renorm_tab1) (th_secondary x)).
Definition rn_spectrum8 (x : spectrum8) : spectrum8 :=
  mkspec8 (renorm_list (sp_data x)) (map renorm_list (sp_discrete x)) (option_map renorm_tab1 (sp_cont x)).
Definition rn_decay8 (d : decay8) : decay8 :=
  mkdecay8 (d_lis d) (d_liso d) (renorm_list (d_energies d)) (renorm_list (d_modes d)) (map rn_spectrum8 (d_spectra d)).
Definition rn_explicit (e : explicit) : explicit :=
  match e with Pairs l => Pairs (renorm_list l) | Square l => Square (renorm_list l) | Rect l => Rect (renorm_list l) end.
Definition rn_derived (d : derived) : derived := match d with Redundant l => Redundant (renorm_list l) | Ratio n l => Ratio n (renorm_list l) end.
Definition rn_block (b : block) : block :=
  mkblock (xmf1 b) (xlfs1 b) (mat1 b) (mt1 b) (map rn_derived (b_nc b)) (map rn_explicit (b_ni b)).
Definition rn_legblock (b : legblock) : legblock := mklegblock (lg_l b) (lg_l1 b) (lg_lct b) (map rn_explicit (lg_data b)).
Definition rn_block34 (b : block34) : block34 := mkblock34 (b34_mt1 b) (b34_nl b) (b34_nl1 b) (map rn_legblock (b34_blocks b)).
Definition rn_level (v : level) : level :=
  mklevel (renorm (lv_qm v)) (renorm (lv_qi v)) (lv_izap v) (lv_lfs v) (map rn_block (lv_reactions v)).
Definition rn_flagged {A} (rn : A -> A) (b : Z * list A) : Z * list A := (fst b, map rn (snd b)).
Definition rn_152 (x : shielding) : shielding := mkshielding (sh_lssf x) (sh_interpolation x) (renorm_list (sh_data x)).
Definition rn_resolved (x : resolved) : resolved :=
  mkresolved (renorm (rs_spi x)) (renorm (rs_ap x)) (rs_lad x) (rs_nlsc x) (map renorm_list (rs_lvalues x)).
Definition rn_unresolved {A} (rn : A -> A) (x : unresolved A) : unresolved A :=
  mkunresolved (renorm (un_spi x)) (renorm (un_ap x)) (un_lssf x) (map rn (un_lvalues x)).
Definition rn_jgroup (x : jgroup) : jgroup := mkjgroup (renorm (jg_awri x)) (jg_l x) (map renorm_list (jg_j x)).
Definition rn_widths (x : widths) : widths := mkwidths (renorm_list (wd_energies x)) (map rn_jgroup (wd_lvalues x)).
Definition rn_background (b : background) : background :=
  match b with
  | NoBackground => NoBackground
  | TableBackground re im => TableBackground (renorm_tab1 re) (renorm_tab1 im)
  | SammyBackground ed eu r0 r1 r2 s0 s1 =>
      SammyBackground (renorm ed) (renorm eu) (renorm r0) (renorm r1) (renorm r2) (renorm s0) (renorm s1)
  | FrohnerBackground ed eu r0 s0 ga => FrohnerBackground (renorm ed) (renorm eu) (renorm r0) (renorm s0) (renorm ga)
  end.
Definition rn_entry (e : entry) : entry := mkentry (en_lch e) (rn_background (en_kind e)).
Definition rn_group (x : group) : group :=
  mkgroup (renorm_list (gp_channels x)) (renorm_list (gp_parameters x)) (map (option_map rn_entry) (gp_background x)).
Definition rn_rml (x : rml) : rml :=
  mkrml (rm_ifg x) (rm_krl x) (rm_krm x) (renorm_list (rm_pairs x)) (map rn_group (rm_groups x)).
Definition rn_params (p : params) : params :=
  match p with
  | Special spi ap => Special (renorm spi) (renorm ap)
  | SLBW x => SLBW (rn_resolved x)
  | MLBW x => MLBW (rn_resolved x)
  | ReichMoore x => ReichMoore (rn_resolved x)
  | RMatrix x => RMatrix (rn_rml x)
  | CaseA x => CaseA (rn_unresolved renorm_list x)
  | CaseB x => CaseB (rn_widths x)
  | CaseC x => CaseC (rn_unresolved rn_jgroup x)
  end.
Definition rn_range (x : range) : range :=
  mkrange (renorm (rg_el x)) (renorm (rg_eh x)) (rg_naps x) (rn_params (rg_params x)) (option_map renorm_tab1 (rg_radius x)).
Definition rn_resisotope (x : resisotope) : resisotope :=
  mkresisotope (ri_zai x) (renorm (ri_abn x)) (ri_lfw x) (map rn_range (ri_ranges x)).
Definition rn_limited (x : limited) : limited :=
  mklimited (renorm (lm_spi x)) (renorm (lm_ap x)) (option_map renorm (lm_dap x)) (map renorm_list (lm_lvalues x)).
Definition rn_short_rml (x : short_rml) : short_rml := mkshort_rml (map renorm_list (sr_groups x)) (renorm_list (sr_matrix x)).
Definition rn_general {D S} (rnD : D -> D) (rnS : S -> S) (x : general D S) : general D S :=
  mkgeneral (renorm (ge_awri x)) (renorm (ge_spi x)) (renorm (ge_ap x)) (option_map rnD (ge_dap x)) (ge_nls x)
    (map rnS (ge_short x)) (map rn_explicit (ge_long x)).
Definition rn_spin32 (x : spin32) : spin32 := mkspin32 (renorm_list (sg_channels x)) (renorm_list (sg_parameters x)).
Definition rn_rml32 (x : rml32) : rml32 := mkrml32 (renorm_list (r32_pairs x)) (map rn_spin32 (r32_groups x)).
(** (the correlations are not printed as numbers of 11 columns) *)
Definition rn_compact {D U} (rnD : D -> D) (rnU : U -> U) (x : compact D U) : compact D U :=
  mkcompact (renorm (co_spi x)) (renorm (co_ap x)) (co_l1 x) (co_n1 x) (option_map rnD (co_dap x)) (rnU (co_unc x)) (co_corr x).
Definition rn_unres32 (x : unres32) : unres32 :=
  mkunres32 (renorm (u32_spi x)) (renorm (u32_ap x)) (map renorm_list (u32_lvalues x)) (renorm_list (u32_matrix x)).
Definition rn_cparams (p : cparams) : cparams :=
  match p with
  | LimitedSLBW x => LimitedSLBW (rn_limited x)
  | LimitedMLBW x => LimitedMLBW (rn_limited x)
  | GeneralSLBW x => GeneralSLBW (rn_general renorm renorm_list x)
  | GeneralMLBW x => GeneralMLBW (rn_general renorm renorm_list x)
  | GeneralRM x => GeneralRM (rn_general renorm_list renorm_list x)
  | GeneralRML x => GeneralRML (rn_general renorm_list rn_short_rml x)
  | CompactSLBW x => CompactSLBW (rn_compact renorm renorm_list x)
  | CompactMLBW x => CompactMLBW (rn_compact renorm renorm_list x)
  | CompactRM x => CompactRM (rn_compact renorm_list renorm_list x)
  | CompactRML x => CompactRML (rn_compact renorm_list rn_rml32 x)
  | Unresolved32 x => Unresolved32 (rn_unres32 x)
  end.
Definition rn_crange (x : crange) : crange :=
  mkcrange (renorm (cr_el x)) (renorm (cr_eh x)) (cr_naps x) (rn_cparams (cr_params x)) (option_map (map rn_explicit) (cr_radius x)).
Definition rn_cisotope (x : cisotope) : cisotope :=
  mkcisotope (renorm (ci_zai x)) (renorm (ci_abn x)) (ci_lfw x) (map rn_crange (ci_ranges x)).
(** ** the table of classes *)
Definition lib_mod (c : sclass) : sbody c -> Prop :=
  match c as c return sbody c -> Prop with
  | K1_451 => mod_descr
  | K1_452 => mod_mult
  | K1_455 => (fun b => mod_decay_data (fst b) /\ mod_mult (snd b))
  | K1_456 => mod_mult
  | K1_458 => mod_fission_q
  | K1_460 => mod_photons
  | K2_151 => (Forall mod_resisotope)
  | K2_152 => mod_152
  | K3 => mod_tab1
  | K23 => mod_tab1
  | K27 => mod_tab1
  | K4 => mod_body4
  | K5 => (Forall mod_p5)
  | K6 => mod_body6
  | K7_2 => mod_elastic
  | K7_4 => mod_thermal
  | K7_451 => (Forall mod_list)
  | K8_454 => (Forall mod_list)
  | K8_457 => mod_decay8
  | K8_459 => (Forall mod_list)
  | K9 => mod_levels
  | K10 => mod_levels
  | K12 => mod_production
  | K13 => mod_multiplicities
  | K14 => mod_body14
  | K15 => (Forall mod_p15)
  | K26 => (Forall (mod_product mod_law26))
  | K28 => (Forall mod_list)
  | K31 => (Forall mod_block)
  | K32_151 => (Forall mod_cisotope)
  | K33 => (mod_flagged mod_block)
  | K34 => (mod_flagged mod_block34)
  | K35 => (Forall mod_list)
  | K40 => (mod_flagged mod_level)
  end.
Definition lib_rn (c : sclass) : sbody c -> sbody c :=
  match c as c return sbody c -> sbody c with
  | K1_451 => rn_descr
  | K1_452 => rn_mult
  | K1_455 => (fun b => (rn_decay_data (fst b), rn_mult (snd b)))
  | K1_456 => rn_mult
  | K1_458 => rn_fission_q
  | K1_460 => rn_photons
  | K2_151 => (map rn_resisotope)
  | K2_152 => rn_152
  | K3 => renorm_tab1
  | K23 => renorm_tab1
  | K27 => renorm_tab1
  | K4 => rn_body4
  | K5 => (map rn_p5)
  | K6 => rn_body6
  | K7_2 => rn_elastic
  | K7_4 => rn_thermal
  | K7_451 => (map renorm_list)
  | K8_454 => (map renorm_list)
  | K8_457 => rn_decay8
  | K8_459 => (map renorm_list)
  | K9 => rn_levels
  | K10 => rn_levels
  | K12 => rn_production
  | K13 => rn_multiplicities
  | K14 => rn_body14
  | K15 => (map rn_p15)
  | K26 => (map (rn_product rn_law26))
  | K28 => (map renorm_list)
  | K31 => (map rn_block)
  | K32_151 => (map rn_cisotope)
  | K33 => (rn_flagged rn_block)
  | K34 => (rn_flagged rn_block34)
  | K35 => (map renorm_list)
  | K40 => (rn_flagged rn_level)
  end.
(** a section with ordinary numbers, and the rounded one *)
Definition ordinary_ids {B} (x : sect B) : Prop := 0 < s_za x < 10 ^ 7 /\ ordinary (s_awr x) /\ real_le rzero (s_awr x).
Definition rn_sect (c : sclass) (x : sect (sbody c)) : sect (sbody c) :=
  mksect (s_za x) (renorm (s_awr x)) (s_mt x) (lib_rn c (s_body x)).
(** sections, files, materials and tapes: as [good_...] of TypedSpec.v *)
Definition ordinary_section (c : sclass) (x : sect (sbody c)) : Prop :=
  ordinary_ids x /\ good_number (skind_of c) x /\ lib_mod c (s_body x) /\ lib_inv c (s_body x).
Definition ordinary_ysec (x : ysec sclass sbody) : Prop := ordinary_section (projT1 x) (projT2 x).
Definition ordinary_file (f : yfile) : Prop :=
  yf_secs f <> [] /\ ascending Z.lt (map fst (yf_secs f))
  /\ Forall (fun p => fst p = y_mt (snd p) /\ k_mf (skind_of (projT1 (snd p))) = yf_mf f /\ ordinary_ysec (snd p)) (yf_secs f).
Definition ordinary_material (m : ymat) : Prop :=
  0 < ym_mat m < 10000 /\ ym_files m <> [] /\ ascending Z.lt (map fst (ym_files m))
  /\ Forall (fun p => fst p = yf_mf (snd p) /\ ordinary_file (snd p)) (ym_files m).
Definition ordinary_tape (t : ytape) : Prop :=
  length (tptext (yt_id t)) = 66%nat /\ noLF (tptext (yt_id t)) /\ tpnum (yt_id t) = 0
  /\ yt_mats t <> [] /\ len (yt_mats t) < 2 ^ 31 /\ Forall ordinary_material (yt_mats t).
Definition rn_ysec (x : ysec sclass sbody) : ysec sclass sbody := existT _ (projT1 x) (rn_sect (projT1 x) (projT2 x)).
Definition rn_file (f : yfile) : yfile := mkyfile (yf_mf f) (map (fun p => (fst p, rn_ysec (snd p))) (yf_secs f)).
Definition rn_material (m : ymat) : ymat := mkymat (ym_mat m) (map (fun p => (fst p, rn_file (snd p))) (ym_files m)).
Definition rn_tape (t : ytape) : ytape := mkytape (yt_id t) (map rn_material (yt_mats t)).
