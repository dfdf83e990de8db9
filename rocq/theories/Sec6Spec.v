(** Sec6Spec.v -- what representable and consistent mean for Files 6 and 26. *)
From Verif Require Import Base Disco Records RealRound RealProofs Spec SecSpec Sec6.
Open Scope Z_scope.

(** a TAB2 and exactly as many records as it announces *)
Definition rep_seqw {C} (repc : C -> Prop) (q : iseq C) : Prop :=
  rep_tab2 (istab q) /\ Forall repc (isrec q).
Definition inv_seqw {C} (invc : tab2 -> C -> Prop) (q : iseq C) : Prop :=
  inv_tab2 (istab q) /\ len (isrec q) = last (tbnd (istab q)) 0 /\ len (isrec q) mod 2 ^ 32 <> 0
  /\ Forall (invc (istab q)) (isrec q).

(** the i-th number of a list *)
Definition value (l : list real) (i : Z) : real := nth (Z.to_nat i) l rzero.
(** LAW = 1: rows of NA + 2 numbers, the first of a row is its secondary energy.  ND of them are
    discrete; the others are in ascending order. *)
Definition drop_ok (l : listr) : Prop :=
  0 < lL2 l + 2 /\ 0 <= lL1 l /\ (lL1 l = 0 \/ (lL1 l - 1) * (lL2 l + 2) < len (lB l)).
Definition energies_ok (l : listr) : Prop :=
  forall i, lL1 l <= i -> (i + 1) * (lL2 l + 2) < len (lB l) ->
    real_le (value (lB l) (i * (lL2 l + 2))) (value (lB l) ((i + 1) * (lL2 l + 2))).
(** NW = NEP * ( NA + 2 ), all as int, with a factor NA + 2 that fits in an int *)
Definition size1_ok (l : listr) : Prop :=
  exists na nep nw, as_int (lL2 l) na /\ as_int (lN2 l) nep /\ as_int (len (lB l)) nw
    /\ int32 (na + 2) /\ nw = nep * (na + 2).
Definition inv_base1 (l : listr) : Prop := drop_ok l /\ energies_ok l /\ size1_ok l.
Definition inv_law1 (t : tab2) (l : listr) : Prop :=
  match tL1 t with
  | 1 | 11 | 12 | 13 | 14 | 15 => inv_base1 l
  | 2 => inv_base1 l /\ (as_int (lL2 l) 1 \/ as_int (lL2 l) 2)
  | 3 => True
  | _ => False
  end.
(** LAW = 2 and 5: the number of values as a function of the order; all as int *)
Definition values_are (l : listr) (f : Z -> Z) : Prop :=
  exists nl nw, as_int (lN2 l) nl /\ as_int (len (lB l)) nw /\ nw = f nl.
Definition twice (n : Z) : Z := 2 * n.
Definition inv_law2 (l : listr) : Prop :=
  (lL1 l = 0 /\ values_are l (fun n => n)) \/ ((lL1 l = 12 \/ lL1 l = 14) /\ values_are l twice).
(** for the amplitudes the product 3 NL has to fit in an int *)
Definition inv_law5 (l : listr) : Prop :=
  (lL1 l = 1 /\ exists nl nw, as_int (lN2 l) nl /\ as_int (len (lB l)) nw /\ int32 (3 * nl) /\ int32 (3 * nl + 3)
      /\ (nw = 3 * nl + 3 \/ nw = 4 * nl + 3))
  \/ (lL1 l = 2 /\ values_are l (fun n => n + 1))
  \/ ((lL1 l = 12 \/ lL1 l = 14 \/ lL1 l = 15) /\ values_are l twice).

Definition rep_law6 (d : law6) : Prop :=
  match d with
  | Continuum q | TwoBody q | ChargedElastic q => rep_seqw endf_list q
  | NBody c => endf_cont c
  | LabAngle q => rep_seq (rep_seq rep_tab1) q
  | _ => True
  end.
Definition inv_law6 (d : law6) : Prop :=
  match d with
  | Elsewhere n => n = -4 \/ n = -5 \/ n = -14 \/ n = -15
  | Continuum q => inv_seqw inv_law1 q
  | TwoBody q => inv_seqw (fun _ => inv_law2) q
  | ChargedElastic q => inv_seqw (fun _ => inv_law5) q
  | LabAngle q => inv_seq (inv_seq inv_tab1 any) any q
  | _ => True
  end.
(** a multiplicity that names the law of the distribution *)
Definition rep_product {L} (rep : L -> Prop) (p : product L) : Prop := rep_tab1 (p_mult p) /\ rep (p_law p).
Definition inv_product {L} (law : L -> Z) (inv : L -> Prop) (p : product L) : Prop :=
  inv_tab1 (p_mult p) /\ as_int (tL2 (tbase (p_mult p))) (law (p_law p)) /\ inv (p_law p).
Definition rep_body6 (b : body6) : Prop := Forall (rep_product rep_law6) (products6 b).
Definition inv_body6 (b : body6) : Prop :=
  int32 (jp6 b) /\ int32 (lct6 b) /\ Forall (inv_product LAW6 inv_law6) (products6 b) /\ len (products6 b) < 2 ^ 31.

(** File 26: LANG is 1 for the continuum, 12 or 14 (as int) for two body scattering *)
Definition rep_law26 (d : law26) : Prop :=
  match d with
  | Continuum26 q => rep_seqw endf_list q
  | TwoBody26 q => rep_seq endf_list q
  | Transfer26 t => rep_tab1 t
  end.
Definition inv_law26 (d : law26) : Prop :=
  match d with
  | Continuum26 q => tL1 (istab q) = 1 /\ inv_seqw (fun _ => inv_base1) q
  | TwoBody26 q => inv_seq (fun l => (as_int (lL1 l) 12 \/ as_int (lL1 l) 14) /\ values_are l twice) any q
  | Transfer26 t => inv_tab1 t
  end.

(** ** texts without undefined behaviour
    A LIST record that the checks of LAW = 1 (Base) can handle, and an order that is small
    enough for the arithmetic on int *)
Definition tame1 (l : listr) : Prop :=
  drop_ok l /\ forall na nep, as_int (lL2 l) na -> as_int (lN2 l) nep -> int32 (na + 2) /\ int32 (nep * (na + 2)).
Definition small (l : listr) : Prop := forall nl, as_int (lN2 l) nl -> -2 ^ 28 < nl < 2 ^ 28.
(** the k-th record (from 0) is announced by the TAB2, whose NZ may be read as an int *)
Definition announced (t : tab2) (k : nat) : Prop :=
  Z.of_nat k < last (tbnd t) 0 \/ exists n, as_int (last (tbnd t) 0) n /\ Z.of_nat k < n.
(** for each LIST record of the distribution of a product that starts here *)
Definition tame_product (mat mf mt : Z) (s : st) : Prop :=
  forall m s1 t s2 k ls s3 l s4,
    rd_tab1 mat mf mt s = Ok m s1 -> rd_tab2 mat mf mt s1 = Ok t s2 ->
    announced t k -> rd_n (rd_list mat mf mt) k s2 = Ok ls s3 -> rd_list mat mf mt s3 = Ok l s4 ->
    (as_int (tL2 (tbase m)) 1 -> tL1 t = 1 \/ tL1 t = 2 \/ 11 <= tL1 t <= 15 -> tame1 l)
    /\ (as_int (tL2 (tbase m)) 2 \/ as_int (tL2 (tbase m)) 5 -> small l).
(** the places reached by reading one component after the other *)
Inductive after {A} (rd : M A) : st -> st -> Prop :=
| after_0 s : after rd s s
| after_S s a s1 s2 : rd s = Ok a s1 -> after rd s1 s2 -> after rd s s2.
(** each product in the text *)
Definition tame6 (mat mt : Z) (text : text) : Prop :=
  forall ln s, after (rd_product6 mt mat 6 mt) (mkst text ln) s -> tame_product mat 6 mt s.
Definition tame26 (mat mt : Z) (text : text) : Prop :=
  forall ln s, after (rd_product26 mat 26 mt) (mkst text ln) s -> tame_product mat 26 mt s.
