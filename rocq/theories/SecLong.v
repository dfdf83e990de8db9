(** SecLong.v -- a section class that reads its own lines only, as long as the lines have 66 columns. *)
From Coq Require Import ZifyBool ZifyNat.
From Verif Require Import Base Disco Records Layout Spec LineFacts Sections SecSpec.
Open Scope Z_scope.

(** a line of less than 66 columns, not the last one, comes after lines that satisfy P *)
Definition met_short (P : text -> Prop) (t : text) : Prop :=
  exists i, (forall j, (j < i)%nat -> P (nth_line t j)) /\ (length (nth_line t i) < 66)%nat
    /\ drop_lines i t <> nth_line t i.
(** the class reads its own lines, and only these matter, unless it meets a line of less than 66 columns *)
Definition section_long {B} (k : skind B) : Prop := forall h mat s x s', rd_section k h mat s = Ok x s' ->
  (exists s1, consumed (carries (k_rmat k h mat) (k_mf k) (k_rmt k h)) s s1
     /\ consumed (ends_section mat (k_mf k)) s1 s' /\ line s' = line s1 + 1
     /\ (let n := line s' - line s in
        forall t ln, (forall i, Z.of_nat i < n -> nth_line t i = nth_line (buf s) i) ->
        rd_section k h mat (mkst t ln) = Ok x (mkst (drop_lines (Z.to_nat n) t) (ln + n)))
     /\ let n := line s' - line s - 1 in
        forall t ln, (forall i, Z.of_nat i < n -> nth_line t i = nth_line (buf s) i) ->
        k_read k h (k_rmat k h mat) (k_mf k) (k_rmt k h) (mkst t ln)
        = Ok (s_body x) (mkst (drop_lines (Z.to_nat n) t) (ln + n)))
  \/ met_short (carries (k_rmat k h mat) (k_mf k) (k_rmt k h)) (buf s).
(** a line with MT /= 0 has more columns *)
Lemma carries_long mat mf mt l : carries mat mf mt l -> mt <> 0 -> (66 <= length l)%nat.
Proof.
  intros (_ & _ & E) H. destruct (le_lt_dec 66 (length l)) as [K|K]; [exact K|exfalso].
  unfold col in E. rewrite skipn_all2 in E by lia. vm_compute in E. congruence.
Qed.
