(** Sec33Spec.v -- what representable and consistent mean for the covariance files. *)
From Verif Require Import Base Disco Records RealRound RealProofs Spec SecSpec Sec9Spec Sec6 Sec6Spec Sec33.
Open Scope Z_scope.

(** ** explicit covariances: all numbers of the LIST record as int *)
(** LB = 0, 1, 2, 8, 9: one array of pairs; LB = 3, 4: two arrays *)
Definition inv_pairs (l : listr) : Prop :=
  (exists lb lt, as_int (lL2 l) lb /\ as_int (lL1 l) lt
    /\ (((lb = 0 \/ lb = 1 \/ lb = 2 \/ lb = 8 \/ lb = 9) /\ lt = 0) \/ ((lb = 3 \/ lb = 4) /\ 0 < lt)))
  /\ values_are l twice.
(** NE energies and the upper triangle, or all of a matrix of order NE - 1 *)
Definition square_ok (ls ne nt : Z) : Prop :=
  int32 (nt - ne) /\ int32 (ne - 1)
  /\ ((ls <> 0 /\ int32 (ne * (ne - 1)) /\ 2 * (nt - ne) = ne * (ne - 1)) \/ (ls = 0 /\ nt - ne = (ne - 1) * (ne - 1))).
Definition inv_square (l : listr) : Prop :=
  as_int (lL2 l) 5 /\ exists ls ne nt, as_int (lL1 l) ls /\ as_int (lN2 l) ne /\ as_int (len (lB l)) nt /\ square_ok ls ne nt.
(** NT = 1 + NER NEC *)
Definition inv_rect (l : listr) : Prop :=
  as_int (lL2 l) 6 /\ exists ner nt, as_int (lN2 l) ner /\ as_int (len (lB l)) nt
    /\ ner <> 0 /\ int32 (nt - 1) /\ ~ (nt - 1 = -2147483648 /\ ner = -1) /\ exists nec, nt = 1 + ner * nec.
Definition inv_explicit (e : explicit) : Prop :=
  match e with
  | Pairs l => (0 <= lL2 l <= 4 \/ lL2 l = 8 \/ lL2 l = 9) /\ inv_pairs l
  | Square l => lL2 l = 5 /\ inv_square l
  | Rect l => lL2 l = 6 /\ inv_rect l
  end.
Definition rep_explicit (e : explicit) : Prop := endf_list (list_of e).
(** ** derived covariances *)
Definition rep_derived (d : derived) : Prop := endf_list (list_ofd d).
Definition inv_derived (d : derived) : Prop := match d with Redundant _ => True | Ratio lty _ => 1 <= lty <= 3 end.
(** ** blocks *)
Definition rep_block (b : block) : Prop :=
  Z.abs (xmf1 b) < 10 ^ 7 /\ Z.abs (xlfs1 b) < 10 ^ 7 /\ Forall rep_derived (b_nc b) /\ Forall rep_explicit (b_ni b).
Definition inv_block (b : block) : Prop :=
  int32 (mat1 b) /\ int32 (mt1 b) /\ many_of inv_derived (b_nc b) /\ many_of inv_explicit (b_ni b).
Definition rep_legblock (b : legblock) : Prop := Forall rep_explicit (lg_data b).
Definition inv_legblock (b : legblock) : Prop :=
  int32 (lg_l b) /\ int32 (lg_l1 b) /\ int32 (lg_lct b) /\ many_of inv_explicit (lg_data b).
Definition rep_block34 (b : block34) : Prop := Forall rep_legblock (b34_blocks b).
Definition inv_block34 (b : block34) : Prop :=
  int32 (b34_mt1 b) /\ int32 (b34_nl b) /\ int32 (b34_nl1 b) /\ many_of inv_legblock (b34_blocks b).
(** what a block needs to be part of section [mt] *)
Definition fits_section (mt : Z) (b : block34) : Prop :=
  let nl := b34_nl b in
  if mt =? b34_mt1 b
  then b34_nl1 b = nl /\ int32 (nl + 1) /\ int32 (nl * (nl + 1)) /\ 2 * len (b34_blocks b) = nl * (nl + 1)
  else len (b34_blocks b) = nl * b34_nl1 b.
Definition inv_square35 (l : listr) : Prop :=
  as_int (lL2 l) 7 /\ exists ne nt, as_int (lN2 l) ne /\ as_int (len (lB l)) nt /\ square_ok 1 ne nt.
Definition rep_level (v : level) : Prop := endf_real (lv_qm v) /\ endf_real (lv_qi v) /\ Forall rep_block (lv_reactions v).
Definition inv_level (v : level) : Prop := int32 (lv_izap v) /\ int32 (lv_lfs v) /\ many_of inv_block (lv_reactions v).
(** sections: a flag and any number of components *)
Definition rep_flagged {A} (rep : A -> Prop) (b : Z * list A) : Prop := Forall rep (snd b).
Definition inv_flagged {A} (inv : A -> Prop) (b : Z * list A) : Prop := int32 (fst b) /\ many_of inv (snd b).

(** ** texts without undefined behaviour *)
(** a LIST record whose counts are small enough for the checks *)
Definition tame_cov (l : listr) : Prop :=
  len (lB l) < 2 ^ 30 /\ forall n, as_int (lN2 l) n -> Z.abs n < 2 ^ 15 /\ (lL2 l = 6 -> n <> 0).
(** ... and each of the first n LIST records from here *)
Definition tame_lists (n mat mf mt : Z) (s : st) : Prop :=
  forall k ls s1 l s2, Z.of_nat k < n -> rd_n (rd_list mat mf mt) k s = Ok ls s1 -> rd_list mat mf mt s1 = Ok l s2 -> tame_cov l.
Definition tame_block (mat mf mt : Z) (s : st) : Prop :=
  forall c s1, rd_cont mat mf mt s = Ok c s1 -> int32 (round_int (c1 c)) /\ int32 (round_int (c2 c))
    /\ forall nk ni ds s2, as_int (n1 c) nk -> as_int (n2 c) ni ->
         rd_n (rd_derived mat mf mt) (Z.to_nat nk) s1 = Ok ds s2 -> tame_lists ni mat mf mt s2.
Definition tame_cov_section (mf mat mt : Z) (text : text) : Prop :=
  forall ln s, after (rd_block mat mf mt) (mkst text ln) s -> tame_block mat mf mt s.
Definition tame34 (mat mt : Z) (text : text) : Prop :=
  forall ln s c s1, after (rd_block34 mt mat 34 mt) (mkst text ln) s -> rd_cont mat 34 mt s = Ok c s1 ->
    Z.abs (n1 c) < 2 ^ 15 /\ Z.abs (n2 c) < 2 ^ 15
    /\ forall s2 c2 s3 ni, after (rd_legblock mat 34 mt) s1 s2 -> rd_cont mat 34 mt s2 = Ok c2 s3 -> as_int (n2 c2) ni ->
         tame_lists ni mat 34 mt s3.
Definition tame35 (mat mt : Z) (text : text) : Prop :=
  forall ln k ls s1 l s2, rd_n (rd_list mat 35 mt) k (mkst text ln) = Ok ls s1 -> rd_list mat 35 mt s1 = Ok l s2 -> tame_cov l.
Definition tame40 (mat mt : Z) (text : text) : Prop :=
  forall ln s c s1 s2, after (rd_level mat 40 mt) (mkst text ln) s -> rd_cont mat 40 mt s = Ok c s1 ->
    after (rd_block mat 40 mt) s1 s2 -> tame_block mat 40 mt s2.
