(** ExKit.v -- building blocks for the concrete instances shown beside the
    section theorems. *)
From Coq Require Import QArith.
From Verif Require Import Base Disco Records RealRound RealProofs Spec Sections SecSpec PropRecords.
Open Scope Z_scope.

(** a list record with the given L1, L2, N2 and values *)
Definition xlist (a b c : Z) (l : list real) : listr := mklist r_pi r_one a b c l.
(** a table with the given L1, L2: two regions, three points *)
Definition xtab2 (a b : Z) : tab2 := mktab2 r_pi r_one a b [2; 3] [2; 5].
Definition xtab1 (a b : Z) : tab1 := mktab1 (xtab2 a b) [r_tiny; r_one; r_pi] [r_one; r_pi; r_tiny].
Ltac xt :=
  repeat match goal with
  | |- endf_real _ => first [apply endf_one | apply endf_pi | apply endf_tiny]
  | |- Forall _ [] => constructor
  | |- Forall _ (_ :: _) => constructor
  | |- _ /\ _ => split
  | |- True => exact I
  | |- any _ => exact I
  | |- in_cols _ _ => first [assumption | split; vm_compute; reflexivity]
  | |- int32 _ => split; vm_compute; congruence
  | |- as_int _ _ => split; [split; [vm_compute; congruence|vm_compute; reflexivity]|vm_compute; reflexivity]
  | |- (_ < _)%Z => vm_compute; reflexivity
  | |- (_ <= _)%Z => vm_compute; congruence
  | |- @eq Z _ _ => vm_compute; reflexivity
  | |- @eq nat _ _ => vm_compute; reflexivity
  | |- @eq bool _ _ => vm_compute; reflexivity
  | |- _ <> _ => discriminate
  | |- real_le _ _ => apply Qle_bool_iff; vm_compute; reflexivity
  | |- ascending _ _ => cbn [ascending]
  | |- endf_list (xlist _ _ _ _) => unfold endf_list; cbn [xlist lC1 lC2 lL1 lL2 lN2 lB]
  | |- endf_cont (mkcont _ _ _ _ _ _) => unfold endf_cont, ints_fit; cbn [c1 c2 l1 l2 n1 n2]
  | |- rep_tab1 (xtab1 _ _) => unfold rep_tab1; cbn [xtab1 tbase tx ty]
  | |- rep_tab2 (xtab2 _ _) => unfold rep_tab2; cbn [xtab2 tC1 tC2 tL1 tL2 tbnd tint]
  | |- inv_tab1 (xtab1 _ _) => unfold inv_tab1; cbn [xtab1 tbase tx ty]
  | |- inv_tab2 (xtab2 _ _) => unfold inv_tab2; cbn [xtab2 tC1 tC2 tL1 tL2 tbnd tint]
  | |- rep_seq _ _ => unfold rep_seq; cbn [istab isrec]
  | |- inv_seq _ _ _ => unfold inv_seq; cbn [istab isrec]
  | |- good_ids _ => unfold good_ids; cbn [s_za s_awr]
  | |- good_number _ _ => split; hnf
  end.
(** the instance of a section theorem: the hypotheses of its round trip hold of [x] *)
Definition meets {B} (k : skind B) (rep inv : B -> Prop) (x : sect B) : Prop :=
  good_ids x /\ good_number k x /\ rep (s_body x) /\ inv (s_body x).
