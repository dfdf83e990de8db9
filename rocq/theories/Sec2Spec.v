(** Sec2Spec.v -- what representable and consistent mean for File 2. *)
From Verif Require Import Base Disco Records RealRound RealProofs Spec SecSpec Sec9Spec Sec6 Sec6Spec Sec33Spec Sec7 Sec7Spec Sec2.
Open Scope Z_scope.

(** ** 152: NW = ( NREAC NSIGZ + 1 ) NUNR + NSIGZ, all as int *)
Definition inv_152_list (l : listr) : Prop :=
  exists nreac nsigz nunr nw, as_int (lL1 l) nreac /\ as_int (lL2 l) nsigz /\ as_int (lN2 l) nunr /\ as_int (len (lB l)) nw
    /\ int32 (nreac * nsigz) /\ int32 (nreac * nsigz + 1) /\ int32 ((nreac * nsigz + 1) * nunr)
    /\ nw = (nreac * nsigz + 1) * nunr + nsigz.
Definition rep_152 (x : shielding) : Prop := endf_list (sh_data x).
Definition inv_152 (x : shielding) : Prop := int32 (sh_interpolation x) /\ inv_152_list (sh_data x).

(** ** resolved resonances: six numbers for each of at least one resonance *)
Definition inv_lvalue (l : listr) : Prop := exists nrs, 1 <= nrs /\ as_int (lN2 l) nrs /\ as_int (len (lB l)) (6 * nrs).
Definition rep_resolved (x : resolved) : Prop := endf_real (rs_spi x) /\ endf_real (rs_ap x) /\ Forall endf_list (rs_lvalues x).
Definition inv_resolved (x : resolved) : Prop := int32 (rs_nlsc x) /\ some_of inv_lvalue (rs_lvalues x).
(** ... and no fewer l values for convergence than l values *)
Definition inv_reich_moore (x : resolved) : Prop := inv_resolved x /\ len (rs_lvalues x) <= rs_nlsc x.

(** ** unresolved resonances *)
(** case A: six numbers for each spin *)
Definition inv_independent (l : listr) : Prop := values_are l (fun n => 6 * n).
Definition rep_unresolved {A} (rep : A -> Prop) (x : unresolved A) : Prop :=
  endf_real (un_spi x) /\ endf_real (un_ap x) /\ Forall rep (un_lvalues x).
Definition inv_unresolved {A} (inv : A -> Prop) (x : unresolved A) : Prop := some_of inv (un_lvalues x).
Definition rep_jgroup (x : jgroup) : Prop := endf_real (jg_awri x) /\ Forall endf_list (jg_j x).
Definition inv_jgroup (inv : listr -> Prop) (x : jgroup) : Prop := int32 (jg_l x) /\ some_of inv (jg_j x).
(** case C: six numbers, then six for each of at least one energy (modulo 2^32) *)
Definition inv_dependent (l : listr) : Prop := exists ne, 0 <= ne /\ len (lB l) = 6 + 6 * ne /\ 0 < ne mod 2 ^ 32.
(** case B: six numbers, then the fission width for each energy (modulo 2^32) *)
Definition widths_for (ne : Z) (l : listr) : Prop := 6 <= len (lB l) /\ (len (lB l) - 6) mod 2 ^ 32 = ne.
Definition inv_width_group (ne : Z) (x : jgroup) : Prop := inv_jgroup (widths_for ne) x.
Definition rep_widths (x : widths) : Prop := endf_list (wd_energies x) /\ Forall rep_jgroup (wd_lvalues x).
Definition inv_widths (x : widths) : Prop :=
  0 < len (lB (wd_energies x)) mod 2 ^ 32
  /\ as_int (lN2 (wd_energies x)) (len (wd_lvalues x))
  /\ some_of (inv_width_group (len (lB (wd_energies x)) mod 2 ^ 32)) (wd_lvalues x).

(** ** R-matrix limited *)
(** twelve numbers for each particle pair, six for each channel, lines of six for the resonances *)
Definition inv_pairs_rml (l : listr) : Prop := exists npp, 1 <= npp /\ as_int (lL1 l) npp /\ as_int (len (lB l)) (12 * npp).
Definition inv_channels (l : listr) : Prop := exists nch, 1 <= nch /\ as_int (lN2 l) nch /\ as_int (len (lB l)) (6 * nch).
Definition inv_parameters (l : listr) : Prop := exists nx, 1 <= nx /\ as_int (len (lB l)) (6 * nx).
(** background elements *)
Definition rep_background (b : background) : Prop :=
  match b with
  | NoBackground => True
  | TableBackground re im => rep_tab1 re /\ rep_tab1 im
  | SammyBackground ed eu r0 r1 r2 s0 s1 => Forall endf_real [ed; eu; r0; r1; r2; s0; s1]
  | FrohnerBackground ed eu r0 s0 ga => Forall endf_real [ed; eu; r0; s0; ga]
  end.
Definition inv_background (b : background) : Prop :=
  match b with
  | TableBackground re im => inv_tab1 re /\ inv_tab1 im /\ length (tx re) = length (tx im)
                             /\ length (tbnd (tbase re)) = length (tbnd (tbase im))
  | _ => True
  end.
(** the element of a channel carries the number of that channel, from 1 *)
Definition in_slots (bg : list (option entry)) : Prop :=
  forall i e, nth_error bg i = Some (Some e) -> en_lch e = Z.of_nat i + 1 /\ inv_background (en_kind e).
Definition rep_group (x : group) : Prop :=
  endf_list (gp_channels x) /\ endf_list (gp_parameters x) /\ forall e, In (Some e) (gp_background x) -> rep_background (en_kind e).
(** as many slots as channels, as many elements as announced *)
Definition inv_group (x : group) : Prop :=
  inv_channels (gp_channels x) /\ inv_parameters (gp_parameters x) /\ in_slots (gp_background x)
  /\ as_int (len (lB (gp_channels x)) / 6) (len (gp_background x))
  /\ as_int (lL1 (gp_channels x)) (len (there (gp_background x))).
Definition rep_rml (x : rml) : Prop := endf_list (rm_pairs x) /\ Forall rep_group (rm_groups x).
Definition inv_rml (x : rml) : Prop := int32 (rm_krm x) /\ inv_pairs_rml (rm_pairs x) /\ some_of inv_group (rm_groups x).

(** ** ranges and isotopes *)
Definition rep_params (p : params) : Prop :=
  match p with
  | Special spi ap => endf_real spi /\ endf_real ap
  | SLBW x | MLBW x | ReichMoore x => rep_resolved x
  | RMatrix x => rep_rml x
  | CaseA x => rep_unresolved endf_list x
  | CaseB x => rep_widths x
  | CaseC x => rep_unresolved rep_jgroup x
  end.
Definition inv_params (p : params) : Prop :=
  match p with
  | Special _ _ => True
  | SLBW x | MLBW x => inv_resolved x
  | ReichMoore x => inv_reich_moore x
  | RMatrix x => inv_rml x
  | CaseA x => inv_unresolved inv_independent x
  | CaseB x => inv_widths x
  | CaseC x => inv_unresolved (inv_jgroup inv_dependent) x
  end.
Definition rep_range (x : range) : Prop :=
  endf_real (rg_el x) /\ endf_real (rg_eh x) /\ rep_params (rg_params x) /\ forall t, rg_radius x = Some t -> rep_tab1 t.
(** NAPS is 0 or 1, or 2 with a table of radii; no table in the special case and for R-matrix limited *)
Definition inv_range (x : range) : Prop :=
  inv_params (rg_params x)
  /\ match rg_radius x with
     | None => 0 <= rg_naps x <= 1
     | Some t => inv_tab1 t /\ 0 <= rg_naps x <= 2
                 /\ match rg_params x with Special _ _ | RMatrix _ => False | _ => True end
     end.
Definition is_A (x : range) : Prop := exists a, rg_params x = CaseA a.
Definition is_B (x : range) : Prop := exists b, rg_params x = CaseB b.
(** LFW decides between case A and case B, for all ranges *)
Definition rep_resisotope (x : resisotope) : Prop :=
  Z.abs (ri_zai x) < 10 ^ 7 /\ endf_real (ri_abn x) /\ Forall rep_range (ri_ranges x)
  /\ (ri_lfw x = true -> Forall (fun r => ~ is_A r) (ri_ranges x)).
Definition inv_resisotope (x : resisotope) : Prop :=
  many_of inv_range (ri_ranges x)
  /\ (ri_lfw x = false -> Forall (fun r => ~ is_B r) (ri_ranges x))
  /\ (Forall (fun r => ~ is_A r) (ri_ranges x) \/ Forall (fun r => ~ is_B r) (ri_ranges x)).

(** ** texts without undefined behaviour *)
(** a LIST record whose counts are small enough for the check of 152 *)
Definition tame_152_list (l : listr) : Prop := forall nreac nsigz nunr,
  as_int (lL1 l) nreac -> as_int (lL2 l) nsigz -> as_int (lN2 l) nunr ->
  Z.abs nreac < 2 ^ 8 /\ Z.abs nsigz < 2 ^ 8 /\ Z.abs nunr < 2 ^ 14.
Definition tame152 (mat : Z) (text : text) : Prop := forall ln l s', rd_list mat 2 152 (mkst text ln) = Ok l s' -> tame_152_list l.
(** every LIST record of those that follow each other from here *)
Definition lists_from (P : listr -> Prop) (mat mf mt : Z) (s : st) : Prop :=
  forall k ls s1 l s2, rd_n (rd_list mat mf mt) k s = Ok ls s1 -> rd_list mat mf mt s1 = Ok l s2 -> P l.
(** ... after a CONT record *)
Definition lists_in (P : listr -> Prop) (mat mf mt : Z) (s : st) : Prop :=
  forall c s1, rd_cont mat mf mt s = Ok c s1 -> lists_from P mat mf mt s1.
Definition six (l : listr) : Prop := 6 <= len (lB l).
(** the LIST records of resolved ranges and of case A have small counts, those of the spins of case B and
    case C have six numbers at least *)
Definition tame_params (lru lrf lfw mat mf mt : Z) (s : st) : Prop :=
  (lru = 1 -> 1 <= lrf <= 3 -> lists_in small mat mf mt s)
  /\ (lru = 2 -> lrf = 1 -> lfw = 0 -> lists_in small mat mf mt s)
  /\ (lru = 2 -> lrf = 1 -> lfw = 1 -> forall l s1 s2, rd_list mat mf mt s = Ok l s1 ->
        after (rd_width_group mat mf mt) s1 s2 -> lists_in six mat mf mt s2)
  /\ (lru = 2 -> lrf = 2 -> forall c s1 s2, rd_cont mat mf mt s = Ok c s1 ->
        after (rd_jgroup check_dependent mat mf mt) s1 s2 -> lists_in six mat mf mt s2).
Definition tame_range (lfw mat mf mt : Z) (s : st) : Prop :=
  forall c s1 o s2 lru lrf nro, rd_cont mat mf mt s = Ok c s1 -> as_int (l1 c) lru -> as_int (l2 c) lrf -> as_int (n1 c) nro ->
    rd_radius nro mat mf mt s1 = Ok o s2 -> tame_params lru lrf lfw mat mf mt s2.
Definition tame_resisotope (mat mf mt : Z) (s : st) : Prop :=
  forall c s1, rd_cont mat mf mt s = Ok c s1 -> int32 (round_int (c1 c))
    /\ forall lfw s2, as_int (l2 c) lfw -> after (rd_range lfw mat mf mt) s1 s2 -> tame_range lfw mat mf mt s2.
Definition tame151 (text : text) : Prop :=
  forall mat ln s, after (rd_resisotope mat 2 151) (mkst text ln) s -> tame_resisotope mat 2 151 s.
