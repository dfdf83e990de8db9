(** Sec32Spec.v -- what representable and consistent mean for File 32. *)
From Verif Require Import Base Disco Records RealRound RealProofs Spec SecSpec Sec9Spec Sec6 Sec6Spec Sec33 Sec33Spec Sec2Spec Sec32.
Open Scope Z_scope.

(** ** the LIST records, all counts as int *)
(** m numbers for each of at least one resonance *)
Definition inv_rows (m : Z) (l : listr) : Prop := exists n, 1 <= n /\ as_int (lN2 l) n /\ as_int (len (lB l)) (m * n).
(** the upper triangle of a matrix of order n >= 1 *)
Definition inv_triangle (l : listr) : Prop :=
  exists n p, 1 <= n /\ as_int (lN2 l) n /\ as_int (len (lB l)) p /\ int32 (n * (n + 1)) /\ 2 * p = n * (n + 1).
(** six numbers for each of NRB resonances and the upper triangle of a matrix of order MPAR NRB *)
Definition inv_short (l : listr) : Prop :=
  exists mpar nrb p, 1 <= mpar <= 5 /\ 1 <= nrb /\ as_int (lL1 l) mpar /\ as_int (lN2 l) nrb /\ as_int (len (lB l)) p
    /\ int32 (mpar * nrb * (mpar * nrb + 1)) /\ 2 * p = 12 * nrb + mpar * nrb * (mpar * nrb + 1).
(** two lines of six for the resonances *)
Definition inv_parameters12 (l : listr) : Prop := exists nx, 1 <= nx /\ as_int (len (lB l)) (12 * nx).

(** ** limited covariances *)
Definition rep_limited (x : limited) : Prop :=
  endf_real (lm_spi x) /\ endf_real (lm_ap x) /\ (forall d, lm_dap x = Some d -> endf_real d) /\ Forall endf_list (lm_lvalues x).
Definition inv_limited (x : limited) : Prop := some_of (inv_rows 18) (lm_lvalues x).

(** ** general covariances *)
Definition rep_short_rml (x : short_rml) : Prop := Forall endf_list (sr_groups x) /\ endf_list (sr_matrix x).
Definition inv_short_rml (x : short_rml) : Prop := many_of inv_parameters (sr_groups x) /\ inv_triangle (sr_matrix x).
(** LB = 0, 1, 2 (pairs), LB = 5 (a matrix) *)
Definition inv_long (e : explicit) : Prop :=
  match e with
  | Pairs l => 0 <= lL2 l <= 2 /\ inv_pairs l
  | Square l => lL2 l = 5 /\ inv_square l
  | Rect _ => False
  end.
Definition rep_general {D S} (repD : D -> Prop) (repS : S -> Prop) (x : general D S) : Prop :=
  endf_real (ge_awri x) /\ endf_real (ge_spi x) /\ endf_real (ge_ap x) /\ (forall d, ge_dap x = Some d -> repD d)
  /\ Forall repS (ge_short x) /\ Forall rep_explicit (ge_long x).
Definition inv_general {D S} (invS : S -> Prop) (x : general D S) : Prop :=
  0 <= ge_nls x < 2 ^ 32 /\ many_of invS (ge_short x) /\ many_of inv_long (ge_long x).

(** ** compact covariances *)
Definition rep_spin32 (x : spin32) : Prop := endf_list (sg_channels x) /\ endf_list (sg_parameters x).
Definition inv_spin32 (x : spin32) : Prop := inv_channels (sg_channels x) /\ inv_parameters12 (sg_parameters x).
Definition rep_rml32 (x : rml32) : Prop := endf_list (r32_pairs x) /\ Forall rep_spin32 (r32_groups x).
Definition inv_rml32 (x : rml32) : Prop :=
  inv_pairs_rml (r32_pairs x) /\ as_int (lL2 (r32_pairs x)) (len (r32_groups x)) /\ some_of inv_spin32 (r32_groups x).
(** a number of the correlation matrix with NDIGIT digits: the double next to (k + 1/2) / 10^NDIGIT, or to
    (k - 1/2) / 10^NDIGIT for a negative k, where k <> 0 has at most NDIGIT + 1 columns *)
Definition coded (nd : Z) (x : real) : Prop :=
  exists k, k <> 0 /\ in_cols (Z.to_nat nd + 1) k /\ to_double (k <? 0) (2 * Z.abs k + 1) (2 * 10 ^ nd) = Some x.
(** the elements of a row follow each other with ascending columns *)
Definition rows_ascend (i j : list Z) : Prop :=
  forall n, (n + 1 < length i)%nat -> nth (n + 1) i 0 = nth n i 0 -> nth n j 0 < nth (n + 1) j 0.
Definition index5 (z : Z) : Prop := 0 <= z < 10 ^ 5.
Definition inv_corr (x : corr) : Prop :=
  2 <= cm_ndigit x <= 6 /\ int32 (cm_nnn x)
  /\ length (cm_i x) = length (cm_values x) /\ length (cm_j x) = length (cm_values x).
(** a matrix that is not empty cannot be printed with three digits *)
Definition rep_corr (x : corr) : Prop :=
  (cm_values x = [] \/ cm_ndigit x <> 3) /\ len (cm_values x) < 2 ^ 31
  /\ Forall index5 (cm_i x) /\ Forall index5 (cm_j x) /\ rows_ascend (cm_i x) (cm_j x)
  /\ Forall (coded (cm_ndigit x)) (cm_values x).
Definition rep_compact {D U} (repD : D -> Prop) (repU : U -> Prop) (x : compact D U) : Prop :=
  endf_real (co_spi x) /\ endf_real (co_ap x) /\ in_cols 11 (co_l1 x) /\ in_cols 11 (co_n1 x)
  /\ (forall d, co_dap x = Some d -> repD d) /\ repU (co_unc x) /\ rep_corr (co_corr x).
Definition inv_compact {D U} (invU : U -> Prop) (x : compact D U) : Prop := invU (co_unc x) /\ inv_corr (co_corr x).

(** ** unresolved resonances *)
Definition rep_unres32 (x : unres32) : Prop :=
  endf_real (u32_spi x) /\ endf_real (u32_ap x) /\ Forall endf_list (u32_lvalues x) /\ endf_list (u32_matrix x).
Definition inv_unres32 (x : unres32) : Prop := many_of inv_independent (u32_lvalues x) /\ inv_triangle (u32_matrix x).

(** ** ranges and isotopes.  For R-matrix limited there is no uncertainty of the radius *)
Definition none {A} (x : A) : Prop := False.
Definition rep_cparams (p : cparams) : Prop :=
  match p with
  | LimitedSLBW x | LimitedMLBW x => rep_limited x
  | GeneralSLBW x | GeneralMLBW x => rep_general endf_real endf_list x
  | GeneralRM x => rep_general endf_list endf_list x
  | GeneralRML x => rep_general none rep_short_rml x
  | CompactSLBW x | CompactMLBW x => rep_compact endf_real endf_list x
  | CompactRM x => rep_compact endf_list endf_list x
  | CompactRML x => rep_compact none rep_rml32 x
  | Unresolved32 x => rep_unres32 x
  end.
Definition inv_cparams (p : cparams) : Prop :=
  match p with
  | LimitedSLBW x | LimitedMLBW x => inv_limited x
  | GeneralSLBW x | GeneralMLBW x => inv_general inv_short x
  | GeneralRM x => inv_general inv_short x
  | GeneralRML x => inv_general inv_short_rml x
  | CompactSLBW x | CompactMLBW x => inv_compact (inv_rows 12) x
  | CompactRM x => inv_compact (inv_rows 12) x
  | CompactRML x => inv_compact inv_rml32 x
  | Unresolved32 x => inv_unres32 x
  end.
Definition rep_crange (x : crange) : Prop :=
  endf_real (cr_el x) /\ endf_real (cr_eh x) /\ rep_cparams (cr_params x) /\ forall l, cr_radius x = Some l -> Forall rep_explicit l.
(** NAPS is 0 or 1, or 2 with covariances of the radius; none of these for R-matrix limited *)
Definition inv_crange (x : crange) : Prop :=
  inv_cparams (cr_params x)
  /\ match cr_radius x with
     | None => 0 <= cr_naps x <= 1
     | Some l => many_of inv_explicit l /\ 0 <= cr_naps x <= 2
                 /\ match cr_params x with GeneralRML _ | CompactRML _ => False | _ => True end
     end.
Definition rep_cisotope (x : cisotope) : Prop := endf_real (ci_zai x) /\ endf_real (ci_abn x) /\ Forall rep_crange (ci_ranges x).
Definition inv_cisotope (x : cisotope) : Prop := many_of inv_crange (ci_ranges x).

(** ** texts without undefined behaviour *)
(** a LIST record whose counts are small enough for the checks *)
Definition tame_list32 (l : listr) : Prop :=
  len (lB l) < 2 ^ 30 /\ forall n, as_int (lN2 l) n -> Z.abs n < 2 ^ 13 /\ (lL2 l = 6 -> n <> 0).
(** the INTG records announced by a CONT record at s are on complete lines *)
Definition lines_complete (mat mf mt : Z) (s : st) : Prop :=
  forall c s1 nd i gs s2, rd_cont mat mf mt s = Ok c s1 -> l1 c mod 2 ^ 32 = Z.of_nat nd -> (2 <= nd <= 6)%nat ->
    Z.of_nat i < n1 c mod 2 ^ 32 -> rd_n (rd_intg nd (intg_cap nd) mat mf mt) i s1 = Ok gs s2 ->
    (75 <= length (nth_line (buf s2) 0))%nat.
(** wherever a line starts a LIST record *)
Definition tame32 (text : text) : Prop :=
  forall mat k ln l s', rd_list mat 32 151 (mkst (drop_lines k text) ln) = Ok l s' -> tame_list32 l /\ lines_complete mat 32 151 s'.
