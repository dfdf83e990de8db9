(** PropSec2.v -- C46: File 2, resonance parameters and unresolved self-shielding. *)
From Coq Require Import ZifyBool ZifyNat QArith.
From Verif Require Import Base Disco DiscoProofs Records RecordProofs RecordRT RecordSound Layout Normal LineFacts RealRound RealProofs Spec Sections SecSpec Codec SectionProofs SecKit CodecKit
  PropRecords PropRecords3 Sec9 Sec9Spec Sec9Proofs Sec4Spec Sec4Proofs Sec6 Sec6Spec Sec6Proofs Sec6Safe Sec33 Sec33Spec Sec33Proofs Sec33Safe ExKit PropSec6 PropSec33
  Sec8 Sec8Spec Sec8Proofs PropSec8 Sec7 Sec7Spec Sec7Proofs PropSec7 Sec2 Sec2Spec Sec2Proofs.
Open Scope Z_scope.

Theorem C46_mf2_151 : section_rt sec_2_151 (Forall rep_resisotope) (some_of inv_resisotope).
Proof. exact rt_151. Qed.
Theorem C46_mf2_152 : section_rt sec_2_152 rep_152 inv_152.
Proof. exact rt_152. Qed.
Theorem C46_mf2_151_safe : forall h mat s, int32 (round_int (c1 (sbase h))) -> tame151 (buf s) -> never_other (rd_section sec_2_151 h mat s).
Proof. exact safe_151. Qed.
Theorem C46_mf2_152_safe : forall h mat s, int32 (round_int (c1 (sbase h))) -> tame152 (smat h) (buf s) -> never_other (rd_section sec_2_152 h mat s).
Proof. exact safe_152. Qed.

(** ** columns *)
(** the k-th of m columns of a list of n rows, from any list *)
Theorem C46_columns : forall m k n l, (k < m)%nat -> (0 < n)%nat -> length (lB l) = (n * m)%nat ->
  col_of m (Z.of_nat k) l = Val (map (fun i => nth (i * m + k) (lB l) rzero) (seq 0 n)).
Proof.
  intros m k n l Hk Hn L. unfold col_of. assert (Hb : Z.of_nat k <= len (lB l)) by (unfold len; rewrite L; nia). rewrite (proj2 (drop_val (Z.of_nat k) (lB l) _) (conj (conj (Nat2Z.is_nonneg k) Hb) eq_refl)). cbn [obind]. rewrite Nat2Z.id. f_equal. apply list_ext. intros j.
  rewrite stride_nth by lia. rewrite skipn_length, nth_skipn, nth_error_map, L. destruct (Nat.ltb_spec (j * m) (n * m - k)).
  - assert (Hj : (j < n)%nat) by nia. rewrite (nth_error_nth' _ 0%nat) by (rewrite seq_length; lia). rewrite seq_nth by lia. cbn [option_map]. f_equal. f_equal. lia.
  - assert (Hj : (n <= j)%nat) by nia. rewrite (proj2 (nth_error_None _ _)) by (rewrite seq_length; lia). reflexivity.
Qed.
Lemma rows_of_concat cols n : rows_of cols n = concat (map (fun i => map (fun c => nth i c rzero) cols) (seq 0 n)).
Proof. apply flat_map_concat_map. Qed.
Lemma rows_of_rows cols n : Forall (fun r => length r = length cols) (map (fun i => map (fun c : list real => nth i c rzero) cols) (seq 0 n)).
Proof. apply Forall_map, Forall_forall. intros i _. apply map_length. Qed.
Lemma rows_of_length cols n : length (rows_of cols n) = (n * length cols)%nat.
Proof. rewrite rows_of_concat. rewrite (concat_len (length cols) _ (rows_of_rows cols n)), map_length, seq_length. reflexivity. Qed.
Lemma rows_of_nth cols n k i : (k < length cols)%nat -> (i < n)%nat -> nth (i * length cols + k) (rows_of cols n) rzero = nth i (nth k cols []) rzero.
Proof.
  intros Hk Hi. rewrite rows_of_concat. rewrite (nth_rows (length cols)); [|lia|apply rows_of_rows|rewrite map_length, seq_length; lia|exact Hk].
  rewrite (nth_indep _ [] (map (fun c => nth 0%nat c rzero) cols)) by (rewrite map_length, seq_length; lia).
  rewrite (map_nth (fun i => map (fun c => nth i c rzero) cols)). rewrite seq_nth by lia.
  rewrite (nth_indep _ rzero (nth (0 + i)%nat (@nil real) rzero)) by (rewrite map_length; lia). rewrite (map_nth (fun c => nth (0 + i)%nat c rzero)). reflexivity.
Qed.
Lemma map_nth_seq (c : list real) n : length c = n -> map (fun i => nth i c rzero) (seq 0 n) = c.
Proof.
  intros <-. apply list_ext. intros j. rewrite nth_error_map. destruct (nth_error c j) as [x|] eqn:E.
  - assert (Hj : (j < length c)%nat) by (apply nth_error_Some; congruence). rewrite (nth_error_nth' _ 0%nat) by (rewrite seq_length; lia). rewrite seq_nth by lia. cbn [option_map].
    f_equal. now apply nth_error_nth.
  - apply nth_error_None in E. rewrite (proj2 (nth_error_None _ _)) by (rewrite seq_length; lia). reflexivity.
Qed.
(** columns of a list made from columns, after some other numbers *)
Lemma col_made pre cols n m k l : lB l = pre ++ rows_of cols n -> length cols = m -> (k < m)%nat -> (0 < n)%nat -> length (nth k cols []) = n ->
  col_of m (Z.of_nat (length pre + k)) l = Val (nth k cols []).
Proof.
  intros B <- Hk Hn Lk. assert (L := rows_of_length cols n).
  assert (C := C46_columns (length cols) k n (mklist rzero rzero 0 0 0 (rows_of cols n)) Hk Hn L). cbn [lB] in C.
  rewrite (map_ext_in _ (fun i => nth i (nth k cols []) rzero)) in C by (intros i Hi; apply in_seq in Hi; apply rows_of_nth; lia).
  rewrite map_nth_seq in C by exact Lk. rewrite <- C. unfold col_of. cbn [lB]. rewrite B.
  assert (Hc : Z.of_nat k <= len (rows_of cols n)) by (unfold len; rewrite L; nia).
  assert (Hb : Z.of_nat (length pre + k) <= len (pre ++ rows_of cols n)) by (unfold len in *; rewrite app_length; lia).
  rewrite (proj2 (drop_val (Z.of_nat (length pre + k)) (pre ++ rows_of cols n) _) (conj (conj (Nat2Z.is_nonneg _) Hb) eq_refl)).
  rewrite (proj2 (drop_val (Z.of_nat k) (rows_of cols n) _) (conj (conj (Nat2Z.is_nonneg _) Hc) eq_refl)).
  cbn [obind]. rewrite !Nat2Z.id. rewrite skipn_app. rewrite skipn_all2 by lia. replace (length pre + k - length pre)%nat with k by lia. reflexivity.
Qed.
Lemma all_val_map {A B} (f : A -> out B) (g : B -> A) l : Forall (fun b => f (g b) = Val b) l -> all_val (map f (map g l)) = Val l.
Proof. induction 1 as [|b l H _ IH]; [reflexivity|]. cbn [map all_val]. rewrite H, IH. reflexivity. Qed.
Lemma ints_back l : Forall (fun z => 0 <= z < 2 ^ 31) l -> all_val (map (fun x => int_op (trunc x)) (map of_int l)) = Val l.
Proof. intros F. apply all_val_map. revert F. apply Forall_impl. intros z Hz. rewrite trunc_of_int by lia. apply int_op_val. split; [reflexivity|unfold int32; lia]. Qed.
Lemma all_val_some {A B} (f : A -> out B) (g : A -> B) l : Forall (fun a => f a = Val (g a)) l -> all_val (map f l) = Val (map g l).
Proof. induction 1 as [|a l H _ IH]; [reflexivity|]. cbn [map all_val]. rewrite H, IH. reflexivity. Qed.
Lemma chunk_rows_made cols n m l : lB l = rows_of cols n -> length cols = m -> (0 < m)%nat ->
  chunk_rows m l = map (fun i => map (fun c => nth i c rzero) cols) (seq 0 n).
Proof. intros B <- Hm. unfold chunk_rows. rewrite B, rows_of_concat. apply chunks_rows; [exact Hm|apply rows_of_rows|lia]. Qed.
Lemma chunk_made cols n m k l : lB l = rows_of cols n -> length cols = m -> (k < m)%nat -> length (nth k cols []) = n ->
  chunk_col m k l = Val (nth k cols []).
Proof.
  intros B L Hk Lk. unfold chunk_col. rewrite (chunk_rows_made cols n m l B L ltac:(lia)), map_map. rewrite (all_val_some _ (fun i => nth i (nth k cols []) rzero)).
  - f_equal. now apply map_nth_seq.
  - apply Forall_forall. intros i _. unfold element. rewrite nth_error_map. rewrite (nth_error_nth' cols []) by lia. reflexivity.
Qed.
(** a column that is not given is filled with zeros *)
Lemma rows_pad cols n k : (k < length cols)%nat -> nth k cols [] = [] -> rows_of cols n = rows_of (firstn k cols ++ repeat rzero n :: skipn (Datatypes.S k) cols) n.
Proof.
  intros Hk E. unfold rows_of. rewrite !flat_map_concat_map. f_equal. apply map_ext_in. intros i Hi. apply in_seq in Hi.
  rewrite <- (firstn_skipn k cols) at 1. assert (D : skipn k cols = [] :: skipn (Datatypes.S k) cols).
  { clear Hi. revert cols Hk E. induction k as [|k IH]; intros [|c cols] Hk E; cbn [length] in Hk; try lia; cbn [nth] in E; [now subst|]. cbn [skipn]. apply IH; [lia|exact E]. }
  rewrite D, !map_app. f_equal. cbn [map]. f_equal. rewrite nth_repeat. destruct i; reflexivity.
Qed.
Lemma pad_length cols n k m : (k < length cols)%nat -> length cols = m -> length (firstn k cols ++ repeat rzero n :: skipn (Datatypes.S k) cols) = m.
Proof. intros Hk <-. rewrite app_length, firstn_length_le by lia. cbn [length]. rewrite skipn_length. lia. Qed.
Lemma pad_nth (cols : list (list real)) z k : (k < length cols)%nat -> nth k (firstn k cols ++ z :: skipn (Datatypes.S k) cols) [] = z.
Proof. intros Hk. rewrite app_nth2 by (rewrite firstn_length; lia). rewrite firstn_length_le by lia. now rewrite Nat.sub_diag. Qed.
Lemma col_pad pre cols n m k l : lB l = pre ++ rows_of cols n -> length cols = m -> (k < m)%nat -> (0 < n)%nat -> nth k cols [] = [] ->
  col_of m (Z.of_nat (length pre + k)) l = Val (repeat rzero n).
Proof.
  intros B L Hk Hn E. assert (Hl : (k < length cols)%nat) by lia. rewrite (rows_pad cols n k Hl E) in B.
  rewrite (col_made _ _ _ m k _ B (pad_length _ _ _ _ Hl L) Hk Hn); rewrite pad_nth by exact Hl; [reflexivity|apply repeat_length].
Qed.
Lemma chunk_pad cols n m k l : lB l = rows_of cols n -> length cols = m -> (k < m)%nat -> nth k cols [] = [] -> chunk_col m k l = Val (repeat rzero n).
Proof.
  intros B L Hk E. assert (Hl : (k < length cols)%nat) by lia. rewrite (rows_pad cols n k Hl E) in B.
  rewrite (chunk_made _ _ m k _ B (pad_length _ _ _ _ Hl L) Hk); rewrite pad_nth by exact Hl; [reflexivity|apply repeat_length].
Qed.
Lemma all_sized_spec {A} (n : nat) (cols : list (list A)) : (Z.of_nat n < 2 ^ 32) -> all_sized (u32 (Z.of_nat n)) cols = true <-> Forall (fun c => length c = n) cols.
Proof.
  intros H. unfold all_sized. rewrite forallb_forall, Forall_forall. rewrite u32_id by lia. split; intros K c Hc; specialize (K c Hc); lia.
Qed.
Ltac fcons F := repeat match goal with | H : Forall _ (_ :: _) |- _ => inversion_clear H end.

(** ** resonances of an l value *)
Theorem C46_lvalue : forall awri c2 l l2 es spins a b c d x, len es < 2 ^ 32 -> make_lvalue awri c2 l l2 es spins a b c d = Val x ->
  0 < len es /\ Forall (fun v => length v = length es) [spins; a; b; c; d]
  /\ lC1 x = awri /\ lC2 x = c2 /\ lL1 x = l /\ (lL2 x = if l2 then 1 else 0) /\ lN2 x = len es /\ len (lB x) = 6 * len es
  /\ lv_ER x = Val es /\ lv_AJ x = Val spins /\ col_of 6 2 x = Val a /\ col_of 6 3 x = Val b /\ col_of 6 4 x = Val c /\ col_of 6 5 x = Val d
  /\ inv_lvalue x.
Proof.
  intros awri c2 l l2 es spins a b c d x H E. unfold make_lvalue in E. destruct (all_sized _ _) eqn:S1; [|discriminate]. cbn [negb] in E. apply all_sized_spec in S1; [|exact H].
  apply obind_val in E. destruct E as ([] & E & K). injection K as <-. apply check_lvalue_spec in E. assert (P : 0 < len es).
  { destruct E as (n & P & A & _). cbn [lN2] in A. assert (N := len_nonneg es). destruct (Z.eq_dec (len es) 0) as [Z0|]; [|lia]. unfold len in Z0. rewrite Z0 in A. apply as_int_get in A. change (i32 0) with 0 in A. lia. }
  split; [exact P|]. split; [exact S1|]. cbn [lC1 lC2 lL1 lL2 lN2 lB]. split; [reflexivity|]. split; [reflexivity|]. split; [reflexivity|]. split; [reflexivity|]. split; [reflexivity|].
  split; [unfold len; rewrite rows_of_length; cbn [length]; lia|]. assert (Pn : (0 < length es)%nat) by (unfold len in P; lia). fcons S1.
  set (x := mklist _ _ _ _ _ _). assert (C := fun k => col_made [] [es; spins; a; b; c; d] (length es) 6 k x eq_refl eq_refl).
  split; [exact (C 0%nat ltac:(lia) Pn eq_refl)|]. split; [exact (C 1%nat ltac:(lia) Pn ltac:(assumption))|]. split; [exact (C 2%nat ltac:(lia) Pn ltac:(assumption))|].
  split; [exact (C 3%nat ltac:(lia) Pn ltac:(assumption))|]. split; [exact (C 4%nat ltac:(lia) Pn ltac:(assumption))|]. split; [exact (C 5%nat ltac:(lia) Pn ltac:(assumption))|exact E].
Qed.
(** accepted exactly when the columns have the same length, from 1 to 357913941 *)
Theorem C46_lvalue_accepts : forall awri c2 l l2 es spins a b c d, 1 <= len es <= 357913941 -> Forall (fun v => length v = length es) [spins; a; b; c; d] ->
  exists x, make_lvalue awri c2 l l2 es spins a b c d = Val x.
Proof.
  intros awri c2 l l2 es spins a b c d H F. unfold make_lvalue. unfold len in H.
  rewrite (proj2 (all_sized_spec (length es) [spins; a; b; c; d] ltac:(lia)) F). cbn [negb]. set (x := mklist _ _ _ _ _ _).
  assert (K : check_lvalue x = Val tt).
  { apply check_lvalue_spec. exists (len es). unfold x. cbn [lN2 lB]. unfold len. rewrite rows_of_length. cbn [length]. split; [lia|]. split; apply as_int_eq; rewrite i32_id; unfold int32; lia. }
  rewrite K. eexists. reflexivity.
Qed.
Theorem C46_lvalue_refused : forall awri c2 l l2 es spins a b c d, len es < 2 ^ 32 -> es = [] \/ ~ Forall (fun v => length v = length es) [spins; a; b; c; d] ->
  make_lvalue awri c2 l l2 es spins a b c d = Throw EStd.
Proof.
  intros awri c2 l l2 es spins a b c d H K. unfold make_lvalue. destruct (all_sized _ _) eqn:S1; [|reflexivity]. apply all_sized_spec in S1; [|exact H].
  destruct K as [->|K]; [reflexivity|contradiction].
Qed.
(** Breit-Wigner and Reich-Moore: which column is which *)
Theorem C46_bw_columns : forall awri qx l lrx es spins gt gn gg gf x, len es < 2 ^ 32 -> make_bw_lvalue awri qx l lrx es spins gt gn gg gf = Val x ->
  lv_ER x = Val es /\ lv_AJ x = Val spins /\ bw_GT x = Val gt /\ bw_GN x = Val gn /\ bw_GG x = Val gg /\ bw_GF x = Val gf
  /\ lC1 x = awri /\ lC2 x = qx /\ lL1 x = l /\ (lL2 x = if lrx then 1 else 0) /\ lN2 x = len es.
Proof. intros * H E. destruct (C46_lvalue _ _ _ _ _ _ _ _ _ _ _ H E) as (_ & _ & J1 & J2 & J3 & J4 & J5 & _ & K1 & K2 & K3 & K4 & K5 & K6 & _). repeat (split; [assumption|]). assumption. Qed.
Theorem C46_rm_columns : forall awri apl l es spins gn gg gfa gfb x, len es < 2 ^ 32 -> make_rm_lvalue awri apl l es spins gn gg gfa gfb = Val x ->
  lv_ER x = Val es /\ lv_AJ x = Val spins /\ rm_GN x = Val gn /\ rm_GG x = Val gg /\ rm_GFA x = Val gfa /\ rm_GFB x = Val gfb
  /\ lC1 x = awri /\ lC2 x = apl /\ lL1 x = l /\ lL2 x = 0 /\ lN2 x = len es.
Proof. intros * H E. destruct (C46_lvalue _ _ _ _ _ _ _ _ _ _ _ H E) as (_ & _ & J1 & J2 & J3 & J4 & J5 & _ & K1 & K2 & K3 & K4 & K5 & K6 & _). repeat (split; [assumption|]). assumption. Qed.
(** whatever l value was read: six columns of NRS numbers each, which together are the list *)
Theorem C46_lvalue_columns : forall x, inv_lvalue x -> len (lB x) < 2 ^ 31 -> exists n, (0 < n)%nat /\ as_int (lN2 x) (Z.of_nat n) /\ length (lB x) = (n * 6)%nat
  /\ forall k, (k < 6)%nat -> col_of 6 (Z.of_nat k) x = Val (map (fun i => nth (i * 6 + k) (lB x) rzero) (seq 0 n)).
Proof.
  intros x (n & Hn & A & B) H. assert (N := len_nonneg (lB x)). apply as_int_get in B. rewrite i32_id in B by (unfold int32; lia).
  assert (L : length (lB x) = (Z.to_nat n * 6)%nat) by (unfold len in B; lia). exists (Z.to_nat n). rewrite Z2Nat.id by lia. split; [lia|]. split; [exact A|]. split; [exact L|].
  intros k Hk. apply C46_columns; [exact Hk|lia|exact L].
Qed.
(** ** resolved ranges *)
Theorem C46_resolved : forall spi ap lad nlsc ls, len ls < 2 ^ 31 ->
  (0 < len ls -> make_resolved spi ap lad nlsc ls = Val (mkresolved spi ap lad nlsc ls)) /\ (ls = [] -> make_resolved spi ap lad nlsc ls = Throw EStd)
  /\ (0 < len ls <= nlsc -> make_reich_moore spi ap lad nlsc ls = Val (mkresolved spi ap lad nlsc ls))
  /\ (ls = [] \/ nlsc < len ls -> make_reich_moore spi ap lad nlsc ls = Throw EStd).
Proof.
  intros spi ap lad nlsc ls H. assert (V := fun P => proj2 (make_resolved_val spi ap lad nlsc ls _ H) (conj P eq_refl)). assert (N := isize_len ls H).
  split; [exact V|]. split; [intros ->; reflexivity|]. unfold make_reich_moore. split.
  - intros P. rewrite V by lia. cbn [obind]. rewrite N. unfold ensure. destruct (Z.ltb_spec nlsc (len ls)); [lia|]. reflexivity.
  - intros [->|P]; [reflexivity|]. destruct (Z.eq_dec (len ls) 0) as [Z0|NZ].
    + destruct ls; [reflexivity|unfold len in Z0; cbn in Z0; lia].
    + rewrite V by (assert (L := len_nonneg ls); lia). cbn [obind]. rewrite N. unfold ensure. destruct (Z.ltb_spec nlsc (len ls)); [|lia]. reflexivity.
Qed.
(** ** unresolved ranges *)
Lemma map_len_eq {A B} (f : A -> B) l n : length l = n -> length (map f l) = n. Proof. now rewrite map_length. Qed.
(** case A *)
Theorem C46_independent : forall awri l spins d amun gn gg x, len spins < 2 ^ 31 -> make_independent awri l spins d amun gn gg = Val x ->
  Forall (fun v => length v = length spins) [d; gn; gg] /\ length amun = length spins /\ lC1 x = awri /\ lC2 x = rzero /\ lL1 x = l /\ lL2 x = 0 /\ lN2 x = len spins /\ len (lB x) = 6 * len spins
  /\ chunk_col 6 5 x = Val (repeat rzero (length spins)) /\ ui_D x = Val d /\ ui_AJ x = Val spins /\ ui_GN x = Val gn /\ ui_GG x = Val gg
  /\ (Forall (fun z => 0 <= z < 2 ^ 31) amun -> ui_AMUN x = Val amun)
  /\ Forall (fun v => v = repeat rzero (length spins)) [ui_AMUG x; ui_AMUF x; ui_AMUX x; ui_GF x; ui_GX x]
  /\ inv_independent x.
Proof.
  intros awri l spins d amun gn gg x H E. unfold make_independent in E. destruct (all_sized _ _) eqn:S1; [|discriminate]. cbn [andb] in E. apply all_sized_spec in S1; [|unfold len in H; lia].
  rewrite u32_id in E by (unfold len in H; lia). destruct (Z.eqb_spec (Z.of_nat (length amun)) (Z.of_nat (length spins))) as [La|]; [|discriminate]. cbn [negb] in E. apply Nat2Z.inj in La.
  apply obind_val in E. destruct E as ([] & E & K). injection K as <-. apply check_independent_spec in E. split; [exact S1|]. split; [exact La|].
  cbn [lC1 lC2 lL1 lL2 lN2 lB]. do 5 (split; [reflexivity|]). split; [unfold len; rewrite rows_of_length; cbn [length]; lia|].
  fcons S1. set (x := mklist _ _ _ _ _ _) in *. split; [exact (chunk_pad [d; spins; map of_int amun; gn; gg; []] (length spins) 6 5 x eq_refl eq_refl ltac:(lia) eq_refl)|].
  assert (C := fun k => chunk_made [d; spins; map of_int amun; gn; gg; []] (length spins) 6 k x eq_refl eq_refl).
  split; [exact (C 0%nat ltac:(lia) ltac:(assumption))|]. split; [exact (C 1%nat ltac:(lia) eq_refl)|].
  split; [exact (C 3%nat ltac:(lia) ltac:(assumption))|]. split; [exact (C 4%nat ltac:(lia) ltac:(assumption))|]. split; [|split; [|exact E]].
  - intros Fa. assert (C2 := C 2%nat ltac:(lia) (map_len_eq of_int amun _ La)). unfold ui_AMUN, chunk_col in *. rewrite (chunk_rows_made [d; spins; map of_int amun; gn; gg; []] (length spins) 6 x eq_refl eq_refl ltac:(lia)).
    rewrite map_map. rewrite (map_ext_in _ (fun i => Val (nth i amun 0))).
    2: { intros i Hi. apply in_seq in Hi. cbn [map element nth_error obind]. rewrite (nth_indep _ rzero (of_int 0)) by (rewrite map_length; lia). rewrite map_nth.
         rewrite Forall_forall in Fa. assert (Q := Fa (nth i amun 0) ltac:(apply nth_In; lia)). rewrite trunc_of_int by lia. apply int_op_val. split; [reflexivity|unfold int32; lia]. }
    rewrite (all_val_some _ (fun i => nth i amun 0)) by (apply Forall_forall; reflexivity). f_equal. rewrite <- La. apply list_ext. intros j. rewrite nth_error_map. destruct (nth_error amun j) as [y|] eqn:Ey.
    + assert (Hj : (j < length amun)%nat) by (apply nth_error_Some; congruence). rewrite (nth_error_nth' _ 0%nat) by (rewrite seq_length; lia). rewrite seq_nth by lia. cbn [option_map]. f_equal. now apply nth_error_nth.
    + apply nth_error_None in Ey. rewrite (proj2 (nth_error_None _ _)) by (rewrite seq_length; lia). reflexivity.
  - assert (Q : ui_zeroes x = repeat rzero (length spins)). { unfold ui_zeroes, x. cbn [lN2]. rewrite i32_id by (unfold int32, len in *; lia). now rewrite Nat2Z.id. }
    repeat (constructor; [exact Q|]). constructor.
Qed.
(** case C: the energies and the parameters, and the four degrees of freedom *)
Theorem C46_dependent : forall spin amun amug amuf amux inter es d gn gg gf gx x, len es < 2 ^ 32 ->
  make_dependent spin amun amug amuf amux inter es d gn gg gf gx = Val x ->
  0 < len es /\ Forall (fun v => length v = length es) [d; gx; gn; gg; gf] /\ lC1 x = spin /\ lL1 x = inter /\ lN2 x = len es
  /\ (lC2 x = rzero /\ lL2 x = 0 /\ firstn 2 (lB x) = [rzero; rzero])
  /\ jc_ES x = Val es /\ jc_D x = Val d /\ jc_GX x = Val gx /\ jc_GN x = Val gn /\ jc_GG x = Val gg /\ jc_GF x = Val gf /\ jc_NE x = Val (len es)
  /\ (0 <= amux < 2 ^ 31 -> degrees x 2 = Val amux) /\ (0 <= amun < 2 ^ 31 -> degrees x 3 = Val amun)
  /\ (0 <= amug < 2 ^ 31 -> degrees x 4 = Val amug) /\ (0 <= amuf < 2 ^ 31 -> degrees x 5 = Val amuf) /\ inv_dependent x.
Proof.
  intros spin amun amug amuf amux inter es d gn gg gf gx x H E. unfold make_dependent in E. destruct (all_sized _ _) eqn:S1; [|discriminate]. cbn [negb] in E. apply all_sized_spec in S1; [|exact H].
  apply obind_val in E. destruct E as ([] & E & K). injection K as <-. apply check_dependent_spec in E.
  assert (P : 0 < len es). { destruct E as (n & P & A & B). cbn [lB] in A. unfold len in A |- *. rewrite app_length, rows_of_length in A. cbn [length] in A. assert (n = Z.of_nat (length es)) by lia. subst n. destruct (length es); [cbn in B; lia|lia]. }
  split; [exact P|]. split; [exact S1|]. cbn [lC1 lL1 lN2]. split; [reflexivity|]. split; [reflexivity|]. split; [reflexivity|]. split; [split; [reflexivity|split; reflexivity]|].
  assert (Pn : (0 < length es)%nat) by (unfold len in P; lia). fcons S1.
  set (x := mklist _ _ _ _ _ _) in *. assert (C := fun k => col_made [rzero; rzero; of_int amux; of_int amun; of_int amug; of_int amuf] [es; d; gx; gn; gg; gf] (length es) 6 k x eq_refl eq_refl).
  assert (C0 : jc_ES x = Val es) by exact (C 0%nat ltac:(lia) Pn eq_refl).
  split; [exact C0|]. split; [exact (C 1%nat ltac:(lia) Pn ltac:(assumption))|]. split; [exact (C 2%nat ltac:(lia) Pn ltac:(assumption))|].
  split; [exact (C 3%nat ltac:(lia) Pn ltac:(assumption))|]. split; [exact (C 4%nat ltac:(lia) Pn ltac:(assumption))|]. split; [exact (C 5%nat ltac:(lia) Pn ltac:(assumption))|].
  split; [unfold jc_NE; rewrite C0; cbn [obind]; f_equal; rewrite u32_id by (unfold len in H; lia); reflexivity|].
  assert (D : forall i z, element (lB x) i = Val (of_int z) -> 0 <= z < 2 ^ 31 -> degrees x i = Val z).
  { intros i z K Hz. unfold degrees. rewrite K. cbn [obind]. rewrite trunc_of_int by lia. apply int_op_val. split; [reflexivity|unfold int32; lia]. }
  split; [apply D; reflexivity|]. split; [apply D; reflexivity|]. split; [apply D; reflexivity|]. split; [apply D; reflexivity|exact E].
Qed.
(** case B: the fission widths of one spin *)
Theorem C46_widths : forall l spin d amun amuf gn gg gf x, len gf < 2 ^ 32 ->
  (make_widths l spin d amun amuf gn gg gf = Val x <-> gf <> [] /\ x = mklist rzero rzero l amuf 0 ([d; spin; of_int amun; gn; gg; rzero] ++ gf))
  /\ (gf = [] -> make_widths l spin d amun amuf gn gg gf = Throw EStd)
  /\ (make_widths l spin d amun amuf gn gg gf = Val x -> jb_GF x = Val gf /\ widths_for (len gf) x).
Proof.
  intros l spin d amun amuf gn gg gf x H. assert (G : make_widths l spin d amun amuf gn gg gf = Val x <-> gf <> [] /\ x = mklist rzero rzero l amuf 0 ([d; spin; of_int amun; gn; gg; rzero] ++ gf)).
  { unfold make_widths. set (y := mklist _ _ _ _ _ _). assert (J : jb_NE y = Val (len gf)). { apply jb_NE_val. unfold y, widths_for. cbn [lB app]. unfold len in *. cbn [length]. split; [lia|]. rewrite Z.mod_small by lia. lia. }
    unfold check_widths. rewrite J. cbn [obind]. unfold ensure. split.
    - intros E. destruct (Z.ltb_spec (len gf) 1); [discriminate|]. cbn [negb obind] in E. injection E as <-. split; [|reflexivity]. intros ->. unfold len in *. cbn in *. lia.
    - intros (N & ->). destruct (Z.ltb_spec (len gf) 1) as [K|]; [|reflexivity]. destruct gf; [congruence|unfold len in K; cbn [length] in K; lia]. }
  split; [exact G|]. split; [intros ->; reflexivity|]. intros E. apply G in E. destruct E as (_ & ->). split; [unfold jb_GF; apply drop_val; cbn [lB app]; unfold len; cbn [length]; split; [lia|reflexivity]|].
  unfold widths_for. cbn [lB app]. unfold len in *. cbn [length]. split; [lia|]. rewrite Z.mod_small by lia. lia.
Qed.
(** ... of one l value: the same number of energies for all spins; of the range: as many as energies *)
Theorem C46_width_group : forall awri l js ne, len js < 2 ^ 31 -> Forall (fun j => 0 < ne /\ widths_for ne j) js ->
  (js <> [] -> make_width_group awri l js = Val (mkjgroup awri l js)) /\ (js = [] -> make_width_group awri l js = Throw EStd).
Proof.
  intros awri l js ne H F. split; [|intros ->; reflexivity]. intros N. unfold make_width_group, make_jgroup. assert (P : 0 < len js) by (destruct js; [congruence|unfold len; cbn [length]; lia]).
  rewrite (proj2 (one_val js H) P). cbn [obind]. rewrite (same_NE_ok ne); [reflexivity|]. revert F. apply Forall_impl. intros a K. apply K.
Qed.
Theorem C46_width_group_differ : forall awri l js a b na nb, In a js -> In b js -> widths_for na a -> widths_for nb b -> na <> nb ->
  forall x, make_width_group awri l js <> Val x.
Proof.
  intros awri l js a b na nb Ha Hb Wa Wb Hn x E. unfold make_width_group in E. apply obind_val in E. destruct E as (y & _ & E). apply obind_val in E. destruct E as ([] & E & _).
  unfold ensure in E. destruct (same_NE js) eqn:K; [|discriminate]. destruct (same_NE_spec js K) as (ne & F); [intros ->; destruct Ha|]. rewrite Forall_forall in F.
  apply Hn. rewrite (widths_fun _ _ _ Wa (F a Ha)). apply (widths_fun _ _ _ (F b Hb) Wb).
Qed.
Theorem C46_widths_parts : forall spi ap lssf es ls x, len ls < 2 ^ 31 -> make_widths_parts spi ap lssf es ls = Val x ->
  ls <> [] /\ lB (wd_energies x) = es /\ wd_lvalues x = ls /\ lC1 (wd_energies x) = spi /\ lC2 (wd_energies x) = ap /\ (lL1 (wd_energies x) = if lssf then 1 else 0) /\ lL2 (wd_energies x) = 0 /\ lN2 (wd_energies x) = len ls
  /\ Forall (fun g => exists n, group_NE g = Val n /\ n = u32 (len es)) ls.
Proof.
  intros spi ap lssf es ls x H E. unfold make_widths_parts in E. apply make_widths_val in E; [|exact H]. destruct E as (P & W & ->). cbn [wd_energies wd_lvalues lB lC1 lC2 lL1 lL2 lN2].
  split; [now apply nonempty_len|]. split; [reflexivity|]. split; [reflexivity|]. split; [reflexivity|]. split; [reflexivity|]. split; [reflexivity|]. split; [reflexivity|]. split; [reflexivity|].
  unfold widths_ok in W. rewrite forallb_forall in W. apply Forall_forall. intros g Hg. specialize (W g Hg). cbv beta in W. destruct (group_NE g) as [n| |]; try discriminate. exists n. split; [reflexivity|].
  apply Z.eqb_eq in W. symmetry. exact W.
Qed.
(** ** R-matrix limited *)
Theorem C46_pairs : forall ma mb za zb ia ib pa pb q pnt shf mt x, len ma < 2 ^ 32 -> make_pairs_rml ma mb za zb ia ib pa pb q pnt shf mt = Val x ->
  Forall (fun v => length v = length ma) [mb; za; zb; ia; ib; q; pa; pb] /\ Forall (fun v => length v = length ma) [pnt; shf; mt] /\ 0 < len ma
  /\ lL1 x = len ma /\ lN2 x = 2 * len ma /\ len (lB x) = 12 * len ma /\ inv_pairs_rml x
  /\ pp_MA x = Val ma /\ pp_MB x = Val mb /\ pp_ZA x = Val za /\ pp_ZB x = Val zb /\ pp_IA x = Val ia /\ pp_IB x = Val ib /\ pp_Q x = Val q /\ pp_PA x = Val pa /\ pp_PB x = Val pb
  /\ (Forall (fun z => 0 <= z < 2 ^ 31) pnt -> pp_PNT x = Val pnt) /\ (Forall (fun z => 0 <= z < 2 ^ 31) shf -> pp_SHF x = Val shf)
  /\ (Forall (fun z => 0 <= z < 2 ^ 31) mt -> pp_MT x = Val mt).
Proof.
  intros ma mb za zb ia ib pa pb q pnt shf mt x H E. unfold make_pairs_rml in E. destruct (all_sized _ [mb; za; zb; ia; ib; q; pa; pb]) eqn:S1; [|discriminate].
  destruct (all_sized _ [pnt; shf; mt]) eqn:S2; [|discriminate]. cbn [andb negb] in E. apply all_sized_spec in S1; [|exact H]. apply all_sized_spec in S2; [|exact H].
  destruct (check_pairs_rml _) eqn:K; [|discriminate]. injection E as <-. assert (K' := K). apply check_pairs_rml_spec in K.
  assert (P : 0 < len ma). { destruct ma; [discriminate K'|unfold len; cbn [length]; lia]. } clear K'.
  split; [exact S1|]. split; [exact S2|]. split; [exact P|]. cbn [lL1 lN2]. split; [reflexivity|]. split; [reflexivity|]. split; [cbn [lB]; unfold len; rewrite rows_of_length; cbn [length]; lia|]. split; [exact K|].
  assert (Pn : (0 < length ma)%nat) by (unfold len in P; lia). fcons S1. fcons S2. set (x := mklist _ _ _ _ _ _) in *.
  assert (C := fun k => col_made [] [ma; mb; za; zb; ia; ib; q; map of_int pnt; map of_int shf; map of_int mt; pa; pb] (length ma) 12 k x eq_refl eq_refl).
  split; [exact (C 0%nat ltac:(lia) Pn eq_refl)|]. split; [exact (C 1%nat ltac:(lia) Pn ltac:(assumption))|]. split; [exact (C 2%nat ltac:(lia) Pn ltac:(assumption))|].
  split; [exact (C 3%nat ltac:(lia) Pn ltac:(assumption))|]. split; [exact (C 4%nat ltac:(lia) Pn ltac:(assumption))|]. split; [exact (C 5%nat ltac:(lia) Pn ltac:(assumption))|].
  split; [exact (C 6%nat ltac:(lia) Pn ltac:(assumption))|]. split; [exact (C 10%nat ltac:(lia) Pn ltac:(assumption))|]. split; [exact (C 11%nat ltac:(lia) Pn ltac:(assumption))|].
  assert (C7 : col_of 12 7 x = Val (map of_int pnt)) by (apply (C 7%nat ltac:(lia) Pn), map_len_eq; assumption).
  assert (C8 : col_of 12 8 x = Val (map of_int shf)) by (apply (C 8%nat ltac:(lia) Pn), map_len_eq; assumption).
  assert (C9 : col_of 12 9 x = Val (map of_int mt)) by (apply (C 9%nat ltac:(lia) Pn), map_len_eq; assumption).
  unfold pp_PNT, pp_SHF, pp_MT, pp_ints. rewrite C7, C8, C9. cbn [obind]. split; [apply ints_back|]. split; apply ints_back.
Qed.
Theorem C46_channels : forall spin parity ppi l s b apt ape kbk kps x, len l < 2 ^ 32 -> make_channels spin parity ppi l s b apt ape kbk kps = Val x ->
  length ppi = length l /\ Forall (fun v => length v = length l) [s; b; ape; apt] /\ 0 < len l /\ lC1 x = spin /\ lC2 x = parity /\ lL1 x = kbk /\ lL2 x = kps /\ lN2 x = len l
  /\ inv_channels x /\ NCH x = len l /\ (Forall (fun z => 0 <= z < 2 ^ 31) ppi -> ch_PPI x = Val ppi) /\ (Forall (fun z => 0 <= z < 2 ^ 31) l -> ch_L x = Val l)
  /\ ch_S x = Val s /\ ch_BND x = Val b /\ ch_APE x = Val ape /\ ch_APT x = Val apt.
Proof.
  intros spin parity ppi l s b apt ape kbk kps x H E. unfold make_channels in E. destruct (all_sized _ _) eqn:S1; [|now rewrite andb_false_r in E]. apply all_sized_spec in S1; [|exact H].
  rewrite u32_id in E by (unfold len in H; lia). destruct (Z.eqb_spec (Z.of_nat (length ppi)) (Z.of_nat (length l))) as [La|]; [|discriminate]. cbn [andb negb] in E. apply Nat2Z.inj in La.
  destruct (check_channels _) eqn:K; [|discriminate]. injection E as <-. assert (P : 0 < len l). { destruct l; [discriminate K|unfold len; cbn [length]; lia]. } apply check_channels_spec in K.
  split; [exact La|]. split; [exact S1|]. split; [exact P|]. cbn [lC1 lC2 lL1 lL2 lN2]. split; [reflexivity|]. split; [reflexivity|]. split; [reflexivity|]. split; [reflexivity|]. split; [reflexivity|].
  split; [exact K|]. assert (Pn : (0 < length l)%nat) by (unfold len in P; lia). fcons S1. set (x := mklist _ _ _ _ _ _) in *.
  assert (C := fun k => col_made [] [map of_int ppi; map of_int l; s; b; ape; apt] (length l) 6 k x eq_refl eq_refl).
  split. { unfold NCH, npl, x. cbn [lB]. rewrite rows_of_length. cbn [length]. replace (Z.of_nat (length l * 6)) with (len l * 6) by (unfold len; lia). rewrite Z.quot_mul by lia. apply u32_id. unfold len in *. lia. }
  assert (C0 : col_of 6 0 x = Val (map of_int ppi)) by exact (C 0%nat ltac:(lia) Pn (map_len_eq of_int ppi _ La)).
  assert (C1 : col_of 6 1 x = Val (map of_int l)) by exact (C 1%nat ltac:(lia) Pn (map_len_eq of_int l _ eq_refl)).
  unfold ch_PPI, ch_L, ch_ints. rewrite C0, C1. cbn [obind]. split; [apply ints_back|]. split; [apply ints_back|]. split; [exact (C 2%nat ltac:(lia) Pn ltac:(assumption))|].
  split; [exact (C 3%nat ltac:(lia) Pn ltac:(assumption))|]. split; [exact (C 4%nat ltac:(lia) Pn ltac:(assumption))|exact (C 5%nat ltac:(lia) Pn ltac:(assumption))].
Qed.
(** the resonances: every one takes whole lines of six numbers, filled with zeros *)
Lemma parameter_rows_concat pad es ps : parameter_rows pad es ps = concat (map (fun i => nth i es rzero :: nth i ps [] ++ repeat rzero pad) (seq 0 (length es))).
Proof. apply flat_map_concat_map. Qed.
Lemma padding_ok n : 0 <= n < 2 ^ 32 - 1 -> 0 <= padding n < 6 /\ (1 + n + padding n) mod 6 = 0.
Proof.
  intros H. unfold padding. rewrite u32_id by lia. rewrite (Z.rem_mod_nonneg (1 + n) 6) by lia. assert (M := Z.mod_pos_bound (1 + n) 6 ltac:(lia)).
  rewrite Z.rem_mod_nonneg by lia. assert (M2 := Z.mod_pos_bound (6 - (1 + n) mod 6) 6 ltac:(lia)). split; [lia|]. rewrite Zplus_mod, Zmod_mod, <- Zplus_mod.
  assert (D := Z_div_mod_eq_full (1 + n) 6). replace (1 + n + (6 - (1 + n) mod 6)) with (((1 + n) / 6 + 1) * 6) by lia. apply Z_mod_mult.
Qed.
Theorem C46_parameters : forall es ps x nch, Forall (fun p => len p = nch) ps -> len es * (nch + 6) < 2 ^ 31 -> nch < 2 ^ 31 -> make_parameters es ps = Val x ->
  length ps = length es /\ es <> [] /\ lL2 x = len es /\ lN2 x * 6 = len (lB x) /\ inv_parameters x
  /\ pa_ER x = Val es /\ exists pad, (pad < 6)%nat /\ (1 + nch + Z.of_nat pad) mod 6 = 0 /\ pa_GAM x = Val (map (fun p => p ++ repeat rzero pad) ps).
Proof.
  intros es ps x nch F H Hn E. unfold make_parameters in E. destruct es as [|e es']; [destruct ps; discriminate E|]. set (es := e :: es') in *. assert (Pn : 0 < len es) by (unfold len, es; cbn [length]; lia).
  assert (Hes : 6 * len es < 2 ^ 31 \/ nch < 0) by nia.
  destruct (Z.eqb_spec (Z.of_nat (length ps)) (u32 (Z.of_nat (length es)))) as [L|]; [|discriminate]. cbn [negb] in E. destruct (Z.eqb_spec (u32 (Z.of_nat (length es))) 0); [discriminate|].
  destruct ps as [|p ps']; [cbn [length] in L; lia|]. set (ps := p :: ps') in *. assert (Hp : len p = nch) by (inversion F; assumption). assert (N0 := len_nonneg p). fold (len es) in *.
  rewrite (u32_id (len es)) in * by lia. cbn [nth] in E. unfold ps in E. cbn [nth] in E. fold ps in E. change (Z.of_nat (length p)) with (len p) in E. rewrite Hp in E. rewrite (u32_id nch) in E by lia.
  destruct (padding_ok nch ltac:(lia)) as (Pb & Pm). set (pad := padding nch) in *. destruct (all_sized nch ps) eqn:S1; [|discriminate]. cbn [negb] in E.
  destruct (check_parameters _) eqn:K; [|discriminate]. apply check_parameters_spec in K.
  assert (Ls : length ps = length es) by (unfold len in L; lia). clear S1.
  set (w := 1 + nch + pad) in *. assert (Hw : (u32 (u32 (1 + nch) + pad)) = w) by (rewrite (u32_id (1 + nch)) by lia; apply u32_id; lia).
  rewrite Hw in E, K. assert (Hm : 0 <= len es * w < 2 ^ 32) by nia. rewrite (u32_id (len es * w) Hm) in E, K.
  assert (Dw : exists v, w = 6 * v /\ 0 < v). { exists (w / 6). assert (D := Z_div_mod_eq_full w 6). lia. } destruct Dw as (v & Ev & Pv).
  assert (Q : Z.quot (len es * w) 6 = len es * v) by (rewrite Ev; replace (len es * (6 * v)) with (len es * v * 6) by lia; apply Z.quot_mul; lia). rewrite Q in E, K.
  set (rows := map (fun i => nth i es rzero :: nth i ps [] ++ repeat rzero (Z.to_nat pad)) (seq 0 (length es))).
  assert (FR : Forall (fun r => length r = Z.to_nat w) rows).
  { apply Forall_map, Forall_forall. intros i Hi. apply in_seq in Hi. cbn [length]. rewrite app_length, repeat_length. rewrite Forall_forall in F.
    assert (Hi' : (i < length ps)%nat) by lia. assert (A := F (nth i ps []) (nth_In ps [] Hi')). unfold len in A. unfold w. lia. }
  assert (RC : parameter_rows (Z.to_nat pad) es ps = concat rows) by apply parameter_rows_concat.
  assert (RL : length rows = length es) by (unfold rows; rewrite map_length; apply seq_length).
  assert (LL : len (concat rows) = len es * w) by (unfold len; rewrite (concat_len (Z.to_nat w) rows FR), RL; unfold len in *; lia).
  assert (E' : mklist rzero rzero 0 (len es) (len es * v) (concat rows) = x) by (rewrite <- RC; congruence). rewrite RC in K. clear E. subst x. cbn [lL2 lN2 lB].
  split; [exact Ls|]. split; [discriminate|]. split; [reflexivity|]. split; [lia|]. split; [exact K|].
  assert (ST : pa_stride (mklist rzero rzero 0 (len es) (len es * v) (concat rows)) = Val (Z.to_nat w)).
  { unfold pa_stride, npl. cbn [lL2 lB]. change (Z.of_nat (length (concat rows))) with (len (concat rows)). rewrite LL. destruct (Z.eqb_spec (len es) 0); [lia|]. rewrite Q.
    rewrite (Z.mul_comm (len es) v), Z.quot_mul by lia. destruct (Z.ltb_spec (v * 6) 1); [lia|]. do 2 f_equal. lia. }
  assert (CH : chunks (length (concat rows)) (Z.to_nat w) (concat rows) = rows) by (apply chunks_rows; [lia|exact FR|reflexivity]).
  split.
  - unfold pa_ER. rewrite ST. cbn [obind lB]. unfold stride. rewrite CH. f_equal. unfold rows. rewrite map_map. cbn [nth]. apply map_nth_seq. reflexivity.
  - exists (Z.to_nat pad). split; [lia|]. split; [rewrite Z2Nat.id by lia; exact Pm|]. unfold pa_GAM. rewrite ST. cbn [obind lB]. rewrite CH. f_equal. unfold rows. rewrite map_map. cbn [tl].
    clear -Ls. rewrite <- Ls. clear Ls. apply list_ext. intros j. rewrite !nth_error_map. destruct (nth_error ps j) as [q|] eqn:Ej.
    + assert (Hj : (j < length ps)%nat) by (apply nth_error_Some; congruence). rewrite (nth_error_nth' _ 0%nat) by (rewrite seq_length; exact Hj). rewrite seq_nth by exact Hj. cbn [option_map plus].
      rewrite (nth_error_nth ps j [] Ej). reflexivity.
    + apply nth_error_None in Ej. rewrite (proj2 (nth_error_None _ _)) by (rewrite seq_length; exact Ej). reflexivity.
Qed.
(** the background elements: one slot for each channel *)
Definition bg_step (nch : Z) (o : out (list (option entry))) (e : entry) : out (list (option entry)) :=
  let! bg := o in let lch := u32 (en_lch e) in
  if (lch <=? 0) || (nch <? lch) then Throw EStd
  else match nth_error bg (Z.to_nat (lch - 1)) with Some None => Val (set_slot (Z.to_nat (lch - 1)) (Some e) bg) | Some (Some _) => Throw EStd | None => Undef end.
Definition slots (bg : list (option entry)) := forall i e, nth_error bg i = Some (Some e) -> en_lch e = Z.of_nat i + 1.
Lemma bg_throw nch es : fold_left (bg_step nch) es (Throw EStd) = Throw EStd. Proof. induction es; [reflexivity|assumption]. Qed.
Lemma bg_fold nch : 0 <= nch < 2 ^ 31 -> forall es bg, Forall (fun e => int32 (en_lch e)) es -> len bg = nch -> slots bg ->
  (fold_left (bg_step nch) es (Val bg) = Throw EStd /\
     (Exists (fun e => ~ 1 <= en_lch e <= nch) es \/ ~ NoDup (map en_lch es) \/ exists e e', In e es /\ In (Some e') bg /\ en_lch e = en_lch e'))
  \/ (exists bg', fold_left (bg_step nch) es (Val bg) = Val bg' /\ len bg' = nch /\ slots bg' /\ (forall e, In (Some e) bg' <-> In e es \/ In (Some e) bg)
     /\ Forall (fun e => 1 <= en_lch e <= nch) es /\ NoDup (map en_lch es) /\ forall e e', In e es -> In (Some e') bg -> en_lch e <> en_lch e').
Proof.
  intros Hn. induction es as [|e es IH]; intros bg F L Sl.
  - right. exists bg. split; [reflexivity|]. split; [exact L|]. split; [exact Sl|]. split; [intros e; cbn; tauto|]. split; [constructor|]. split; [constructor|]. intros e e' [].
  - apply Forall_cons_iff in F. destruct F as (Fe & F). cbn [fold_left]. unfold bg_step at 2 4. cbn [obind].
    destruct (Z_le_dec 1 (en_lch e)) as [G1|G1]; [destruct (Z_le_dec (en_lch e) nch) as [G2|G2]|].
    2-3: left; split; [|left; constructor; lia].
    2: { unfold int32 in Fe. rewrite (u32_id (en_lch e)) by lia. destruct (Z.leb_spec (en_lch e) 0); [lia|]. destruct (Z.ltb_spec nch (en_lch e)); [|lia]. apply bg_throw. }
    2: { unfold int32 in Fe. destruct (Z.eq_dec (en_lch e) 0) as [Z0|NZ]; [rewrite Z0; apply bg_throw|]. assert (U : u32 (en_lch e) = en_lch e + 2 ^ 32).
         { unfold u32. rewrite <- (Z_mod_plus_full _ 1). apply Z.mod_small. lia. }
         rewrite U. destruct (Z.leb_spec (en_lch e + 2 ^ 32) 0); [apply bg_throw|]. destruct (Z.ltb_spec nch (en_lch e + 2 ^ 32)); [apply bg_throw|lia]. }
    rewrite (u32_id (en_lch e)) by lia. destruct (Z.leb_spec (en_lch e) 0); [lia|]. destruct (Z.ltb_spec nch (en_lch e)); [lia|]. cbn [orb]. set (k := Z.to_nat (en_lch e - 1)).
    assert (Hk : (k < length bg)%nat) by (unfold len in L; unfold k; lia). destruct (nth_error bg k) as [[e'|]|] eqn:K; [| |apply nth_error_None in K; lia].
    + left. split; [apply bg_throw|]. right. right. exists e, e'. split; [left; reflexivity|]. split; [apply (nth_error_In bg k K)|]. rewrite (Sl _ _ K). unfold k. lia.
    + assert (NS : forall i, nth_error (set_slot k (Some e) bg) i = if (i =? k)%nat then Some (Some e) else nth_error bg i).
      { intros i. rewrite nth_set_slot. replace (k <? length bg)%nat with true by (symmetry; apply Nat.ltb_lt; exact Hk). now rewrite andb_true_r. }
      assert (IN : forall d, In (Some d) (set_slot k (Some e) bg) <-> d = e \/ In (Some d) bg).
      { intros d. split.
        - intros I1. apply In_nth_error in I1. destruct I1 as (i & I1). rewrite NS in I1. destruct (Nat.eqb_spec i k); [left; congruence|right; apply (nth_error_In bg i I1)].
        - intros [->|I1]; [apply (nth_error_In _ k); rewrite NS, Nat.eqb_refl; reflexivity|]. apply In_nth_error in I1. destruct I1 as (i & I1). apply (nth_error_In _ i). rewrite NS.
          destruct (Nat.eqb_spec i k); [subst; congruence|exact I1]. }
      assert (NoE : forall d, In (Some d) bg -> en_lch d <> en_lch e).
      { intros d I1 Q. apply In_nth_error in I1. destruct I1 as (i & I1). assert (A := Sl _ _ I1). assert (i = k) by (unfold k; lia). subst. congruence. }
      destruct (IH (set_slot k (Some e) bg)) as [(T & W)|(bg' & V & L' & S' & I' & F' & N' & D')].
      { exact F. } { unfold len. now rewrite length_set_slot. } { intros i d I1. rewrite NS in I1. destruct (Nat.eqb_spec i k); [|apply Sl; exact I1]. assert (d = e) by congruence. subst. unfold k. lia. }
      * left. split; [exact T|]. destruct W as [W|[W|(d & d' & W1 & W2 & W3)]]; [left; now constructor 2| |].
        { right. left. intros N. apply W. cbn [map] in N. now inversion N. }
        apply IN in W2. destruct W2 as [->|W2]; [|right; right; exists d, d'; split; [right; exact W1|]; split; assumption].
        right. left. cbn [map]. intros N. inversion N as [|? ? N1]. apply N1. rewrite <- W3. now apply in_map.
      * right. exists bg'. split; [exact V|]. split; [exact L'|]. split; [exact S'|]. split; [intros d; rewrite I', IN; cbn [In]; intuition congruence|]. split; [constructor; [lia|exact F']|]. split.
        { cbn [map]. constructor; [|exact N']. intros Q. apply in_map_iff in Q. destruct Q as (d & Q1 & Q2). apply (D' d e Q2); [apply IN; left; reflexivity|exact Q1]. }
        intros d d' [<-|I1] I2; [intros Q; apply (NoE d' I2); congruence|]. apply D'; [exact I1|]. apply IN. now right.
Qed.
Theorem C46_backgrounds : forall nch es, 0 <= nch < 2 ^ 31 -> Forall (fun e => int32 (en_lch e)) es ->
  (Forall (fun e => 1 <= en_lch e <= nch) es /\ NoDup (map en_lch es) ->
     exists bg, make_backgrounds nch es = Val bg /\ len bg = nch /\ (forall i e, nth_error bg i = Some (Some e) -> en_lch e = Z.of_nat i + 1) /\ forall e, In (Some e) bg <-> In e es)
  /\ (~ (Forall (fun e => 1 <= en_lch e <= nch) es /\ NoDup (map en_lch es)) -> make_backgrounds nch es = Throw EStd).
Proof.
  intros nch es Hn F. change (make_backgrounds nch es) with (fold_left (bg_step nch) es (Val (repeat None (Z.to_nat nch)))).
  assert (NI : forall e, ~ In (Some e) (repeat (@None entry) (Z.to_nat nch))) by (intros e I1; apply repeat_spec in I1; discriminate).
  destruct (bg_fold nch Hn es (repeat None (Z.to_nat nch)) F) as [(T & W)|(bg & V & L & S' & I' & F' & N' & _)].
  { unfold len. rewrite repeat_length. lia. } { intros i e K. apply nth_error_In in K. destruct (NI _ K). }
  - split; [|intros _; exact T]. intros (A & B). destruct W as [W|[W|(d & d' & _ & W & _)]]; [|contradiction|destruct (NI _ W)].
    apply Exists_exists in W. destruct W as (d & W1 & W2). rewrite Forall_forall in A. destruct (W2 (A d W1)).
  - split; [|intros K; destruct K; split; assumption]. intros _. exists bg. split; [exact V|]. split; [exact L|]. split; [exact S'|]. intros e. rewrite I'. split; [intros [K|K]; [exact K|destruct (NI _ K)]|now left].
Qed.
(** a spin group: as many slots as channels, as many elements as announced *)
Theorem C46_group : forall ch pa bg x, make_group ch pa bg = Val x -> gp_channels x = ch /\ gp_parameters x = pa /\ gp_background x = bg
  /\ as_int (len (lB ch) / 6) (i32 (len bg)) /\ as_int (lL1 ch) (i32 (len (there bg))).
Proof.
  intros ch pa bg x E. unfold make_group in E. apply obind_val in E. destruct E as ([] & A & E). apply obind_val in E. destruct E as ([] & B & E). injection E as <-.
  unfold ensure in A, B. destruct (Z.eqb_spec (i32 (lL1 ch)) (i32 (Z.of_nat (length (there bg))))) as [A1|]; [|discriminate]. destruct (Z.eqb_spec (i32 (NCH ch)) (i32 (Z.of_nat (length bg)))) as [B1|]; [|discriminate].
  split; [reflexivity|]. split; [reflexivity|]. split; [reflexivity|]. rewrite NCH_int in B1. split; apply as_int_eq; assumption.
Qed.
Theorem C46_group_refused : forall ch pa bg, ~ (i32 (NCH ch) = i32 (len bg) /\ i32 (lL1 ch) = i32 (len (there bg))) -> make_group ch pa bg = Throw EStd.
Proof.
  intros ch pa bg N. unfold make_group, ensure, len in *. destruct (Z.eqb_spec (i32 (lL1 ch)) (i32 (Z.of_nat (length (there bg))))); [|reflexivity]. cbn [obind].
  destruct (Z.eqb_spec (i32 (NCH ch)) (i32 (Z.of_nat (length bg)))); [|reflexivity]. destruct N. split; assumption.
Qed.
(** the spin of the target and the scattering radius are those of the first pair with MT 2 *)
Fixpoint first_at (z : Z) (l : list Z) : nat := match l with [] => O | x :: l' => if x =? z then O else S (first_at z l') end.
Lemma find_int_ok z : forall c zs, all_val (map (fun x => int_op (trunc x)) c) = Val zs -> find_int z c = Val (first_at z zs).
Proof.
  induction c as [|x c IH]; intros zs E; cbn [map all_val] in E; [injection E as <-; reflexivity|]. apply obind_val in E. destruct E as (n & A & E). apply obind_val in E. destruct E as (ns & B & E). injection E as <-.
  cbn [find_int first_at]. rewrite A. cbn [obind]. destruct (n =? z); [reflexivity|]. rewrite (IH ns B). reflexivity.
Qed.
Theorem C46_first_at : forall z l, (In z l -> nth_error l (first_at z l) = Some z /\ forall j, (j < first_at z l)%nat -> nth_error l j <> Some z) /\ (~ In z l -> first_at z l = length l).
Proof.
  intros z. induction l as [|x l (IH1 & IH2)]; [split; [intros []|reflexivity]|]. cbn [first_at length In]. destruct (Z.eqb_spec x z) as [->|N].
  - split; [intros _; split; [reflexivity|lia]|intros K; destruct K; now left].
  - split; [|intros K; f_equal; apply IH2; intros K'; apply K; now right]. intros [K|K]; [contradiction|]. destruct (IH1 K) as (A & B). split; [exact A|]. intros [|j] Hj; cbn; [congruence|apply B; lia].
Qed.
Theorem C46_spin : forall x mts ib, pp_MT (rm_pairs x) = Val mts -> pp_IB (rm_pairs x) = Val ib ->
  rml_SPI x = match nth_error ib (first_at 2 mts) with Some v => Val v | None => Undef end.
Proof.
  intros x mts ib A B. unfold rml_SPI. unfold pp_MT, pp_ints in A. apply obind_val in A. destruct A as (c & A1 & A2). rewrite A1. cbn [obind]. rewrite (find_int_ok 2 c mts A2). cbn [obind].
  rewrite B. reflexivity.
Qed.
(** without such a pair the spin is read outside of the list *)
Corollary C46_spin_undefined : forall x mts ib, pp_MT (rm_pairs x) = Val mts -> pp_IB (rm_pairs x) = Val ib -> length ib = length mts -> ~ In 2 mts -> rml_SPI x = Undef.
Proof. intros x mts ib A B L N. rewrite (C46_spin x mts ib A B). rewrite (proj2 (C46_first_at 2 mts) N). now rewrite (proj2 (nth_error_None ib (length mts))) by lia. Qed.
Theorem C46_radius : forall x g gs mts ppi apt, rm_groups x = g :: gs -> pp_MT (rm_pairs x) = Val mts -> ch_PPI (gp_channels g) = Val ppi -> ch_APT (gp_channels g) = Val apt -> len mts < 2 ^ 31 - 1 ->
  rml_AP x = match nth_error apt (first_at (Z.of_nat (first_at 2 mts) + 1) ppi) with Some v => Val v | None => Undef end.
Proof.
  intros x g gs mts ppi apt G A P B H. unfold rml_AP. unfold pp_MT, pp_ints in A. apply obind_val in A. destruct A as (c & A1 & A2). rewrite A1. cbn [obind]. rewrite (find_int_ok 2 c mts A2). cbn [obind]. rewrite G.
  unfold ch_PPI, ch_ints in P. apply obind_val in P. destruct P as (d & P1 & P2). rewrite P1. cbn [obind].
  assert (K : (first_at 2 mts <= length mts)%nat) by (clear; induction mts as [|z l IH]; cbn [first_at length]; [lia|destruct (z =? 2); lia]).
  rewrite i32_u32, i32_id by (unfold int32, len in *; lia). rewrite (find_int_ok _ d ppi P2). cbn [obind]. rewrite B. reflexivity.
Qed.
(** ** ranges, isotopes *)
Theorem C46_range_options : forall el eh naps p o,
  (match o with None => 0 <= naps <= 1 | Some _ => 0 <= naps <= 2 /\ match p with Special _ _ | RMatrix _ => False | _ => True end end -> make_range el eh naps p o = Val (mkrange el eh naps p o))
  /\ (~ match o with None => 0 <= naps <= 1 | Some _ => 0 <= naps <= 2 /\ match p with Special _ _ | RMatrix _ => False | _ => True end end -> make_range el eh naps p o = Throw EStd).
Proof.
  intros el eh naps p o. unfold make_range. destruct (range_ok naps p o) eqn:K; split; intros H; try reflexivity; exfalso.
  - apply H. clear H. destruct o as [t|]; cbn [range_ok] in K; [|lia]. split; [lia|]. destruct p; cbn [LRU LRF] in K; try exact Logic.I; lia.
  - destruct o as [t|]; cbn [range_ok] in K; [|lia]. destruct H as (H1 & H2). destruct p; cbn [LRU LRF] in K; try destruct H2; lia.
Qed.
Theorem C46_isotopes : forall za lfw rs el eh spin ap, 
  make_isotopes [] = Throw EStd
  /\ make_151_ranges za lfw rs = Val [mkresisotope za (of_int 1) lfw rs]
  /\ make_151_special za el eh spin ap = Val [mkresisotope za (of_int 1) false [mkrange el eh 0 (Special spin ap) None]].
Proof. intros. split; [reflexivity|]. split; reflexivity. Qed.
Theorem C46_isotopes_kept : forall l, l <> [] -> len l < 2 ^ 31 -> make_isotopes l = Val l.
Proof. intros l N H. unfold make_isotopes. rewrite (proj2 (one_val l H)); [reflexivity|]. destruct l; [congruence|unfold len; cbn [length]; lia]. Qed.
(** ** unresolved self-shielding *)
Lemma five_cols : forall a b c d e, length b = length a -> length c = length a -> length d = length a -> length e = length a ->
  length (five a b c d e) = length a /\ Forall (fun x => length x = 5%nat) (five a b c d e)
  /\ map (fun x => nth 0 x []) (five a b c d e) = a /\ map (fun x => nth 1 x []) (five a b c d e) = b /\ map (fun x => nth 2 x []) (five a b c d e) = c
  /\ map (fun x => nth 3 x []) (five a b c d e) = d /\ map (fun x => nth 4 x []) (five a b c d e) = e.
Proof.
  induction a as [|x1 a IH]; intros [|x2 b] [|x3 c] [|x4 d] [|x5 e] H1 H2 H3 H4; try discriminate; [repeat split; constructor|].
  destruct (IH b c d e) as (L & F & A & B & C & D & E); [cbn in *; lia..|]. cbn [five map length nth]. rewrite A, B, C, D, E, L. repeat split. constructor; [reflexivity|exact F].
Qed.
Lemma shield_concat : forall es xs, shield_rows es xs = concat (map (fun p => fst p :: concat (snd p)) (combine es xs)).
Proof. induction es as [|e es IH]; intros [|x xs]; [reflexivity..|]. cbn [shield_rows combine map concat fst snd]. rewrite IH. reflexivity. Qed.
Theorem C46_152_values : forall lssf inter temp dil es tot el fi ca cw x, len dil < 2 ^ 31 -> len es < 2 ^ 31 ->
  make_152 lssf inter temp dil es tot el fi ca cw = Val x ->
  Forall (fun v => length v = length es) [tot; el; fi; ca; cw] /\ Forall (fun v => Forall (fun r => length r = length dil) v) [tot; el; fi; ca; cw]
  /\ sh_lssf x = lssf /\ sh_interpolation x = inter /\ TEMZ (sh_data x) = temp /\ NREAC (sh_data x) = 5 /\ NSIGZ (sh_data x) = len dil /\ NUNR (sh_data x) = len es
  /\ len (lB (sh_data x)) = (5 * len dil + 1) * len es + len dil /\ inv_152_list (sh_data x)
  /\ SIGZ (sh_data x) = Val dil /\ EUNR (sh_data x) = Val es
  /\ (dil <> [] -> reaction 0 (sh_data x) = Val tot /\ reaction 1 (sh_data x) = Val el /\ reaction 2 (sh_data x) = Val fi /\ reaction 3 (sh_data x) = Val ca /\ reaction 4 (sh_data x) = Val cw).
Proof.
  intros lssf inter temp dil es tot el fi ca cw x Hd He E. unfold make_152 in E. apply obind_val in E. destruct E as (b & B & E). apply obind_val in E. destruct E as ([] & K & E). injection E as <-.
  unfold shield_list in B. destruct (all_sized _ _) eqn:S1; [|discriminate]. apply all_sized_spec in S1; [|unfold len in He; lia]. cbn [negb] in B. destruct (forallb _ _) eqn:S2; [|discriminate]. injection B as <-.
  assert (Hd' : Z.of_nat (length dil) < 2 ^ 32) by (unfold len in Hd; lia). rewrite forallb_forall in S2.
  assert (S3 : Forall (Forall (fun r => length r = length dil)) (five tot el fi ca cw)) by (apply Forall_forall; intros v Hv; apply all_sized_spec; [exact Hd'|apply S2, Hv]). clear S2.
  split; [exact S1|]. fcons S1. destruct (five_cols tot el fi ca cw) as (L5 & F5 & C1 & C2 & C3 & C4 & C5); [congruence..|]. set (xs := five tot el fi ca cw) in *.
  assert (SC : forall k v, (k < 5)%nat -> map (fun x => nth k x []) xs = v -> Forall (fun r => length r = length dil) v).
  { intros k v Hk <-. apply Forall_map, Forall_forall. intros y Hy. rewrite Forall_forall in S3, F5. specialize (S3 y Hy). rewrite Forall_forall in S3. apply S3, nth_In. rewrite (F5 y Hy). exact Hk. }
  split.
  { constructor; [apply (SC 0%nat _ ltac:(lia) C1)|]. constructor; [apply (SC 1%nat _ ltac:(lia) C2)|]. constructor; [apply (SC 2%nat _ ltac:(lia) C3)|]. constructor; [apply (SC 3%nat _ ltac:(lia) C4)|].
    constructor; [apply (SC 4%nat _ ltac:(lia) C5)|constructor]. }
  cbn [sh_lssf sh_interpolation sh_data]. apply check_152_spec in K. set (l := mklist _ _ _ _ _ _) in *.
  split; [reflexivity|]. split; [reflexivity|]. split; [reflexivity|]. split; [reflexivity|].
  assert (ND : NSIGZ l = len dil) by (unfold NSIGZ, l; cbn [lL2]; apply i32_id; unfold int32, len in *; lia).
  split; [exact ND|]. split; [unfold NUNR, l; cbn [lN2]; apply i32_id; unfold int32, len in *; lia|].
  assert (D5 : 5 * len dil + 1 < 2 ^ 31).
  { destruct K as (nr & ns & nu & nw & A1 & A2 & A3 & A4 & I1 & I2 & _). apply as_int_get in A1, A2. change (i32 (lL1 l)) with 5 in A1. change (i32 (lL2 l)) with (NSIGZ l) in A2. rewrite ND in A2. subst nr ns. unfold int32 in I2. lia. }
  assert (N0 := len_nonneg dil). set (rows := map (fun p => fst p :: concat (snd p)) (combine es xs)).
  set (w := (1 + length dil * 5)%nat).
  assert (FR : Forall (fun r => length r = w) rows).
  { apply Forall_map, Forall_forall. intros [e y] Hy. cbn [fst snd length]. apply in_combine_r in Hy. rewrite Forall_forall in S3, F5. rewrite (concat_len (length dil) y (S3 y Hy)), (F5 y Hy). unfold w. lia. }
  assert (LX : length es = length xs) by lia.
  assert (RL : length rows = length es) by (unfold rows; rewrite map_length, combine_length; lia).
  assert (BB : lB l = dil ++ concat rows) by (unfold l, rows; cbn [lB]; now rewrite shield_concat).
  assert (LB : len (lB l) = (5 * len dil + 1) * len es + len dil) by (rewrite BB; unfold len; rewrite app_length, (concat_len w rows FR), RL; unfold w; lia).
  split; [exact LB|]. split; [exact K|]. split; [unfold SIGZ; rewrite ND, BB; apply take_app; reflexivity|].
  assert (DB : drop_exactly (len dil) (lB l) = Val (concat rows)).
  { apply drop_val. rewrite LB. split; [assert (M := len_nonneg es); nia|]. rewrite BB. unfold len. rewrite Nat2Z.id, skipn_app, Nat.sub_diag, skipn_all. reflexivity. }
  assert (CH : chunks (length (concat rows)) w (concat rows) = rows) by (apply chunks_rows; [lia|exact FR|reflexivity]).
  split.
  - assert (J1 : int32 (len dil * 5)) by (unfold int32; lia). assert (J2 : int32 (1 + len dil * 5)) by (unfold int32; lia). unfold EUNR. rewrite ND, DB. cbn [obind]. rewrite (proj2 (int_op_val (len dil * 5) _) (conj eq_refl J1)). cbn [obind].
    rewrite (proj2 (int_op_val (1 + len dil * 5) _) (conj eq_refl J2)). cbn [obind]. destruct (Z.ltb_spec (1 + len dil * 5) 1); [lia|].
    replace (Z.to_nat (1 + len dil * 5)) with w by (unfold w, len; lia). unfold stride. rewrite CH. unfold rows. rewrite map_map. cbn [nth]. f_equal. apply combine_fst. exact LX.
  - intros ND0. assert (P : 0 < len dil) by (destruct dil; [congruence|unfold len; cbn [length]; lia]).
    assert (RE : forall i, (i < 5)%nat -> reaction i l = Val (map (fun y => nth i y []) xs)).
    { intros i Hi. unfold reaction. change (lL1 l) with 5. change (lL2 l) with (len dil). rewrite (u32_id (len dil)) by lia. change (u32 5) with 5. rewrite (u32_id (len dil * 5)) by lia. rewrite (u32_id (1 + len dil * 5)) by lia.
      rewrite DB. cbn [obind]. destruct (Z.eqb_spec (1 + len dil * 5) 0); [lia|]. destruct (Z.eqb_spec (len dil) 0); [lia|]. cbn [orb]. replace (Z.to_nat (1 + len dil * 5)) with w by (unfold w, len; lia). rewrite CH. unfold rows. rewrite map_map.
      rewrite (all_val_some _ (fun p => nth i (snd p) [])).
      - rewrite <- (map_map snd (fun y => nth i y [])). now rewrite combine_snd.
      - apply Forall_forall. intros [e y] Hy. cbn [fst snd tl length]. apply in_combine_r in Hy. rewrite Forall_forall in S3, F5. replace (Z.to_nat (len dil)) with (length dil) by (unfold len; lia).
        rewrite (chunks_rows (length dil)); [|unfold len in P; lia|exact (S3 y Hy)|lia]. rewrite (nth_error_nth' y []); [reflexivity|]. rewrite (F5 y Hy). exact Hi. }
    rewrite !RE by lia. rewrite C1, C2, C3, C4, C5. auto 6.
Qed.
(** infinite dilution is one dilution of 1e+10 *)
Definition single (l : list real) : list (list real) := map (fun v => [v]) l.
Lemma rows_single : forall es tot el fi ca cw, length tot = length es -> length el = length es -> length fi = length es -> length ca = length es -> length cw = length es ->
  rows_of [es; tot; el; fi; ca; cw] (length es) = shield_rows es (five (single tot) (single el) (single fi) (single ca) (single cw)).
Proof.
  induction es as [|e es IH]; intros [|a tot] [|b el] [|c fi] [|d ca] [|f cw] H1 H2 H3 H4 H5; try discriminate; [reflexivity|].
  cbn [length] in *. injection H1 as H1. injection H2 as H2. injection H3 as H3. injection H4 as H4. injection H5 as H5. unfold single in *. cbn [map five shield_rows concat app].
  rewrite <- (IH tot el fi ca cw) by assumption. unfold rows_of. cbn [seq flat_map map nth app]. do 6 f_equal. rewrite <- seq_shift. rewrite !flat_map_concat_map, map_map. reflexivity.
Qed.
Theorem C46_152_infinite : forall lssf inter temp es tot el fi ca cw, len es < 2 ^ 32 ->
  make_152_infinite lssf inter temp es tot el fi ca cw = make_152 lssf inter temp [of_int 10000000000] es (single tot) (single el) (single fi) (single ca) (single cw).
Proof.
  intros lssf inter temp es tot el fi ca cw H. unfold make_152_infinite, make_152, shield_list.
  assert (S : all_sized (u32 (Z.of_nat (length es))) [single tot; single el; single fi; single ca; single cw] = all_sized (u32 (Z.of_nat (length es))) [tot; el; fi; ca; cw])
    by (unfold all_sized, single; cbn [forallb]; now rewrite !map_length).
  rewrite S. clear S. destruct (all_sized _ [tot; el; fi; ca; cw]) eqn:S1; [|reflexivity]. cbn [negb]. apply all_sized_spec in S1; [|exact H]. fcons S1.
  rewrite (rows_single es tot el fi ca cw) by assumption.
  replace (forallb _ (five _ _ _ _ _)) with true; [reflexivity|]. symmetry. apply forallb_forall. clear. unfold single.
  revert el fi ca cw. induction tot as [|a tot IH]; intros [|b el] [|c fi] [|d ca] [|f cw] y; cbn [map five In]; try tauto. intros [<-|K]; [reflexivity|eapply IH; exact K].
Qed.
Theorem C46_152_accepts : forall lssf inter temp dil es tot el fi ca cw, (5 * len dil + 1) * len es + len dil < 2 ^ 31 -> 5 * len dil + 1 < 2 ^ 31 -> len es < 2 ^ 31 ->
  Forall (fun v => length v = length es) [tot; el; fi; ca; cw] -> Forall (fun v => Forall (fun r => length r = length dil) v) [tot; el; fi; ca; cw] ->
  exists x, make_152 lssf inter temp dil es tot el fi ca cw = Val x.
Proof.
  intros lssf inter temp dil es tot el fi ca cw H1 H2 H3 F G. assert (N1 := len_nonneg dil). assert (N2 := len_nonneg es). unfold make_152, shield_list.
  rewrite (proj2 (all_sized_spec (length es) [tot; el; fi; ca; cw] ltac:(unfold len in H3; lia)) F). cbn [negb]. fcons F.
  destruct (five_cols tot el fi ca cw) as (L5 & F5 & C1 & C2 & C3 & C4 & C5); [congruence..|]. set (xs := five tot el fi ca cw) in *.
  assert (S3 : Forall (Forall (fun r => length r = length dil)) xs).
  { apply Forall_forall. intros y Hy. assert (L := F5). rewrite Forall_forall in L. specialize (L y Hy). destruct y as [|y0 [|y1 [|y2 [|y3 [|y4 [|]]]]]]; try discriminate L. fcons G.
    assert (K : forall k v, map (fun x => nth k x []) xs = v -> Forall (fun r => length r = length dil) v -> length (nth k [y0; y1; y2; y3; y4] []) = length dil).
    { intros k v <- Q. rewrite Forall_map in Q. rewrite Forall_forall in Q. exact (Q _ Hy). }
    constructor; [apply (K 0%nat _ C1); assumption|]. constructor; [apply (K 1%nat _ C2); assumption|]. constructor; [apply (K 2%nat _ C3); assumption|]. constructor; [apply (K 3%nat _ C4); assumption|].
    constructor; [apply (K 4%nat _ C5); assumption|constructor]. }
  replace (forallb _ xs) with true. 2: { symmetry. apply forallb_forall. intros y Hy. apply all_sized_spec; [unfold len in H2; lia|]. rewrite Forall_forall in S3. exact (S3 y Hy). }
  cbn [obind]. set (l := mklist _ _ _ _ _ _).
  assert (K : check_152 l = Val tt).
  { apply check_152_spec. exists 5, (len dil), (len es), ((5 * len dil + 1) * len es + len dil). unfold l. cbn [lL1 lL2 lN2 lB].
    split; [apply as_int_eq; reflexivity|]. split; [apply as_int_eq, i32_id; unfold int32, len in *; lia|]. split; [apply as_int_eq, i32_id; unfold int32, len in *; lia|]. split.
    - apply as_int_eq. unfold len at 1. rewrite app_length, shield_concat. rewrite (concat_len (1 + length dil * 5)).
      + rewrite map_length, combine_length. rewrite i32_id; [unfold len; lia|]. unfold int32, len in *. nia.
      + apply Forall_map, Forall_forall. intros [e y] Hy. cbn [fst snd length]. apply in_combine_r in Hy. rewrite Forall_forall in S3, F5. rewrite (concat_len (length dil) y (S3 y Hy)), (F5 y Hy). lia.
    - unfold int32. split; [nia|]. split; [nia|]. split; [nia|reflexivity]. }
  rewrite K. eexists. reflexivity.
Qed.
(** ** examples *)
(** two resonances; six numbers for each of two spins *)
Definition six_one := [r_pi; r_one; r_tiny; r_one; r_pi; r_one].
Definition xtwo := xlist 1 0 2 (six_one ++ six_one).
Definition xeight := xlist 1 2 0 (six_one ++ [r_one; r_pi]).
Definition xresolved := mkresolved r_one r_pi true 3 [xtwo; xtwo].
Definition xpairs := xlist 2 0 4 (six_one ++ six_one ++ six_one ++ six_one).
Definition xchannels := xlist 2 0 3 (six_one ++ six_one ++ six_one).
Definition xgroup := mkgroup xchannels xtwo
  [Some (mkentry 1 (TableBackground (xtab1 0 0) (xtab1 0 0))); None; Some (mkentry 3 (SammyBackground r_tiny r_pi r_one r_one r_pi r_one r_one))].
Definition xrml := mkrml false true 3 xpairs [xgroup; mkgroup (xlist 0 0 1 six_one) xtwo [None]].
Definition xwidths := mkwidths (xlist 0 0 2 [r_tiny; r_one]) [mkjgroup r_pi 0 [xeight; xeight]; mkjgroup r_pi 1 [xeight]].
Definition x151 := [
  mkresisotope 92235 r_one true [mkrange r_tiny r_one 2 (SLBW xresolved) (Some (xtab1 0 0)); mkrange r_tiny r_one 0 (RMatrix xrml) None; mkrange r_one r_pi 0 (CaseB xwidths) None];
  mkresisotope 92238 r_pi false [mkrange r_tiny r_one 1 (ReichMoore xresolved) None; mkrange r_one r_pi 0 (CaseA (mkunresolved r_one r_pi true [xtwo])) None;
    mkrange r_one r_pi 1 (CaseC (mkunresolved r_one r_pi false [mkjgroup r_pi 0 [xtwo; xtwo]])) None; mkrange r_one r_pi 0 (Special r_one r_tiny) None]].
Ltac l1 := unfold len; cbn [length]; lia.
Lemma ex_two : endf_list xtwo. Proof. unfold xtwo, six_one. cbn [app]. xt. Qed.
Lemma ex_two_lv : inv_lvalue xtwo. Proof. exists 2. split; [lia|]. split; nai. Qed.
Lemma ex_resolved : rep_resolved xresolved /\ inv_resolved xresolved.
Proof.
  split.
  - split; [xt|]. split; [xt|]. constructor; [exact ex_two|]. constructor; [exact ex_two|constructor].
  - split; [split; cbn; lia|]. split; [|cbn [xresolved rs_lvalues]; l1]. constructor; [exact ex_two_lv|]. constructor; [exact ex_two_lv|constructor].
Qed.
Lemma ex_rml : rep_rml xrml /\ inv_rml xrml.
Proof.
  assert (P : inv_parameters xtwo) by (exists 2; split; [lia|nai]).
  split.
  - split; [unfold xrml, xpairs, six_one; cbn [rm_pairs app]; xt|]. constructor; [|constructor; [|constructor]].
    + split; [unfold xgroup, xchannels, six_one; cbn [gp_channels app]; xt|]. split; [exact ex_two|]. intros e [E|[E|[E|[]]]]; try discriminate E; injection E as <-; cbn [en_kind rep_background]; [split; xt|xt].
    + split; [unfold six_one; cbn [gp_channels app]; xt|]. split; [exact ex_two|]. intros e [E|[]]. discriminate E.
  - split; [split; cbn; lia|]. split; [exists 2; split; [lia|]; split; nai|]. split; [|cbn [xrml rm_groups]; l1]. constructor; [|constructor; [|constructor]].
    + split; [exists 3; split; [lia|]; split; nai|]. split; [exact P|]. split; [|split; nai]. intros [|[|[|[|i]]]] e E; try discriminate E; cbn in E; injection E as <-; (split; [reflexivity|]); cbn [en_kind inv_background]; [|exact Logic.I].
      split; [xt|]. split; [xt|]. split; reflexivity.
    + split; [exists 1; split; [lia|]; split; nai|]. split; [exact P|]. split; [|split; nai]. intros [|[|i]] e E; discriminate E.
Qed.
Lemma ex_widths : rep_widths xwidths /\ inv_widths xwidths.
Proof.
  assert (E8 : endf_list xeight) by (unfold xeight, six_one; cbn [app]; xt). assert (W8 : widths_for 2 xeight) by (split; [vm_compute; discriminate|reflexivity]).
  assert (G : forall a l js, int32 l -> Forall (eq xeight) js -> js <> [] -> len js < 2 ^ 31 -> inv_width_group 2 (mkjgroup a l js)).
  { intros a l js Hl F N L. split; [exact Hl|]. split; [revert F; apply Forall_impl; intros j <-; exact W8|]. cbn [jg_j]. destruct js; [congruence|]. unfold len in *. cbn [length] in *. lia. }
  split.
  - split; [cbn [xwidths wd_energies]; xt|]. constructor; [split; [xt|constructor; [exact E8|constructor; [exact E8|constructor]]]|]. constructor; [|constructor]. split; [xt|constructor; [exact E8|constructor]].
  - split; [vm_compute; reflexivity|]. split; [nai|]. split; [|cbn [xwidths wd_lvalues]; l1]. change (len (lB (wd_energies xwidths)) mod 2 ^ 32) with 2.
    constructor; [|constructor; [|constructor]]; (apply G; [split; lia| |discriminate|l1]); auto.
Qed.
Example C46_example_151 : meets sec_2_151 (Forall rep_resisotope) (some_of inv_resisotope) (mksect 92235 r_pi 151 x151).
Proof.
  destruct ex_resolved as (R1 & R2), ex_rml as (M1 & M2), ex_widths as (W1 & W2). assert (NA : forall r a, rg_params r <> CaseA a -> True) by auto.
  xids; [split; [cbn; reflexivity|exact Logic.I]|]. unfold x151. split.
  - constructor; [|constructor; [|constructor]].
    + split; [cbn; lia|]. split; [xt|]. split.
      * constructor; [split; [xt|split; [xt|split; [exact R1|intros t E; injection E as <-; xt]]]|]. constructor; [split; [xt|split; [xt|split; [exact M1|discriminate]]]|].
        constructor; [split; [xt|split; [xt|split; [exact W1|discriminate]]]|constructor].
      * intros _. constructor; [intros (a & E); discriminate E|]. constructor; [intros (a & E); discriminate E|]. constructor; [intros (a & E); discriminate E|constructor].
    + split; [cbn; lia|]. split; [xt|]. split; [|discriminate].
      constructor; [split; [xt|split; [xt|split; [exact R1|discriminate]]]|]. constructor; [split; [xt|split; [xt|split; [|discriminate]]]|].
      { split; [xt|]. split; [xt|]. constructor; [exact ex_two|constructor]. }
      constructor; [split; [xt|split; [xt|split; [|discriminate]]]|].
      { split; [xt|]. split; [xt|]. constructor; [|constructor]. split; [xt|]. constructor; [exact ex_two|]. constructor; [exact ex_two|constructor]. }
      constructor; [split; [xt|split; [xt|split; [split; xt|discriminate]]]|constructor].
  - split; [|l1]. constructor; [|constructor; [|constructor]].
    + split; [|split; [discriminate|]].
      * split; [|cbn [ri_ranges]; l1]. constructor; [split; [exact R2|cbn [rg_radius rg_naps rg_params]; split; [xt|split; [lia|exact Logic.I]]]|].
        constructor; [split; [exact M2|cbn [rg_radius rg_naps]; lia]|]. constructor; [split; [exact W2|cbn [rg_radius rg_naps]; lia]|constructor].
      * left. constructor; [intros (a & E); discriminate E|]. constructor; [intros (a & E); discriminate E|]. constructor; [intros (a & E); discriminate E|constructor].
    + assert (NB : Forall (fun r => ~ is_B r) (ri_ranges (nth 1 x151 (mkresisotope 0 r_one true [])))).
      { constructor; [intros (a & E); discriminate E|]. constructor; [intros (a & E); discriminate E|]. constructor; [intros (a & E); discriminate E|]. constructor; [intros (a & E); discriminate E|constructor]. }
      split; [|split; [intros _; exact NB|right; exact NB]]. split; [|cbn [ri_ranges]; l1].
      constructor; [split; [split; [exact R2|vm_compute; discriminate]|cbn [rg_radius rg_naps]; lia]|].
      constructor; [split; [|cbn [rg_radius rg_naps]; lia]|].
      { split; [|cbn [un_lvalues]; l1]. constructor; [|constructor]. exists 2, 12. split; [nai|]. split; [nai|reflexivity]. }
      constructor; [split; [|cbn [rg_radius rg_naps]; lia]|constructor; [split; [exact Logic.I|cbn [rg_radius rg_naps]; lia]|constructor]].
      split; [|cbn [un_lvalues]; l1]. constructor; [|constructor]. split; [split; cbn; lia|]. split; [|cbn [jg_j]; l1].
      constructor; [|constructor; [|constructor]]; (exists 1; split; [lia|]; split; [reflexivity|cbn; lia]).
Qed.
(** two dilutions, one energy *)
Definition xshield := mkshielding true 5 (xlist 5 2 1 [r_one; r_pi; r_tiny; r_one; r_pi; r_one; r_pi; r_one; r_pi; r_one; r_pi; r_one; r_pi]).
(** the LIST record of MT152 is compared with the MAT number of the HEAD record, the SEND record with the one asked for *)
Definition shield_text (mat : Z) : text := pr_list (sh_data xshield) mat 2 152 ++ pr_sdiv (mksdiv zero_cont 9437 2 0).
Definition shield_head : sdiv := mksdiv (mkcont (of_int 92235) r_pi 0 0 0 (sh_interpolation xshield)) 9228 2 152.
Theorem C46_mat152_refuted : (exists x s, rd_section sec_2_152 shield_head 9437 (mkst (shield_text 9228) 0) = Ok x s)
  /\ exists e s, rd_section sec_2_152 shield_head 9437 (mkst (shield_text 9437) 0) = Err e s.
Proof. split; do 2 eexists; vm_compute; reflexivity. Qed.
Example C46_example_152 : meets sec_2_152 rep_152 inv_152 (mksect 92235 r_pi 152 xshield).
Proof.
  xids; [split; [cbn; reflexivity|exact Logic.I]|]. split.
  - unfold rep_152, xshield. cbn [sh_data]. xt.
  - split; [split; cbn; lia|]. exists 5, 2, 1, 13. split; [nai|]. split; [nai|]. split; [nai|]. split; [nai|]. unfold int32. lia.
Qed.
(** ** what is not so *)
(** the number of reactions is not checked to be 5: the energies are then wrong and some reactions are undefined *)
Definition xtwo_reactions := xlist 2 1 2 [r_one; r_tiny; r_pi; r_pi; r_one; r_pi; r_pi].
Theorem C46_152_reactions_refuted : endf_list xtwo_reactions /\ inv_152_list xtwo_reactions /\ NUNR xtwo_reactions = 2
  /\ EUNR xtwo_reactions = Val [r_tiny] /\ reaction 1 xtwo_reactions = Val [[r_pi]; [r_pi]] /\ reaction 2 xtwo_reactions = Undef.
Proof.
  split; [unfold xtwo_reactions; xt|]. split.
  - exists 2, 1, 2, 7. split; [nai|]. split; [nai|]. split; [nai|]. split; [nai|]. unfold int32. lia.
  - split; [reflexivity|]. split; [reflexivity|]. split; reflexivity.
Qed.
(** numberBackgroundChannels is the number of channels *)
Theorem C46_background_count_refuted : gp_numberBackgroundChannels xgroup = 3 /\ gp_KBK xgroup = 2 /\ length (there (gp_background xgroup)) = 2%nat.
Proof. split; [reflexivity|]. split; reflexivity. Qed.
(** the number of resonances may be zero; the energies are then undefined *)
Theorem C46_no_resonances_refuted : inv_parameters xtwo /\ endf_list xtwo /\ pa_ER xtwo = Undef /\ pa_GAM xtwo = Undef.
Proof. split; [exists 2; split; [lia|nai]|]. split; [exact ex_two|]. split; reflexivity. Qed.
(** the number of energies announced by a spin of case C is ignored *)
Theorem C46_dependent_count_refuted : forall a b c d n n' vs, check_dependent (mklist a b c d n vs) = check_dependent (mklist a b c d n' vs).
Proof. reflexivity. Qed.
(** the real and the imaginary part of a background element may be given on different energies *)
Theorem C46_tables_refuted : exists re im, rep_tab1 re /\ inv_tab1 re /\ rep_tab1 im /\ inv_tab1 im /\ make_table (re, im) = Val (TableBackground re im)
  /\ ~ Forall2 same_real (tx re) (tx im).
Proof.
  exists (xtab1 0 0), (mktab1 (xtab2 0 0) [r_tiny; r_tiny; r_pi] [r_one; r_pi; r_tiny]). split; [xt|]. split; [xt|]. split; [unfold rep_tab1; cbn [tbase tx ty]; xt|]. split; [unfold inv_tab1; cbn [tbase tx ty]; xt|]. split; [reflexivity|].
  intros F. inversion F as [|? ? ? ? _ F1]. inversion F1 as [|? ? ? ? K _]. rewrite <- req_spec in K. discriminate K.
Qed.
(** ** undefined behaviour is reachable *)
Definition head2 (mt : Z) : sdiv := mksdiv (mkcont r_one r_one 1 0 1 0) 27 2 mt.
Lemma head2_ok {A} mt (f : Z * real -> M A) s : bind (sec_head false false (head2 mt) 27 2) f s = f (1, r_one) s.
Proof.
  unfold bind, sec_head, head_za32, lift, require, bind. cbv zeta. cbn [head2 sbase c1 c2 smt smat smf]. rewrite round_one.
  change (rlt r_one rzero) with false. reflexivity.
Qed.
Lemma good2 mt : 0 < mt < 1000 -> in_cols 4 27 /\ in_cols 2 2 /\ in_cols 3 mt. Proof. intros H. split; [|split]; unfold in_cols; cbn; lia. Qed.
Lemma reads2 mt l ln rest : 0 < mt < 1000 -> endf_list l -> rd_list 27 2 mt (mkst (pr_list l 27 2 mt ++ rest) ln) = Ok l (mkst rest (ln + nc_list l)).
Proof. intros H R. refine (co_reads _ _ _ _ _ cod_list 27 2 mt l _ R Logic.I rest ln). split; [|split]; unfold in_cols; cbn; lia. Qed.
Lemma reads2c mt c ln rest : 0 < mt < 1000 -> endf_cont c -> rd_cont 27 2 mt (mkst (pr_cont c 27 2 mt ++ rest) ln) = Ok c (mkst rest (ln + 1)).
Proof. intros H R. refine (co_reads _ _ _ _ _ cod_cont 27 2 mt c _ R Logic.I rest ln). split; [|split]; unfold in_cols; cbn; lia. Qed.
(** the counts of 152 overflow *)
Theorem C46_undefined_reachable_152 : exists h s, int32 (round_int (c1 (sbase h))) /\ rd_section sec_2_152 h 27 s = UB.
Proof.
  exists (head2 152), (mkst (pr_list (xlist 65536 65536 1 [r_one]) 27 2 152 ++ []) 0). split; [cbn [head2 sbase c1]; rewrite round_one; split; lia|].
  unfold rd_section. change (k_chk sec_2_152) with false. change (k_mf sec_2_152) with 2. rewrite (head2_ok 152). apply bind_ub. change (k_rmat sec_2_152 (head2 152) 27) with 27. change (k_rmt sec_2_152 (head2 152)) with 152.
  cbn [sec_2_152 k_read k_mf]. unfold rd_152, rd_checked. apply bind_ub. rewrite (bind_step _ _ _ _ _ (reads2 152 (xlist 65536 65536 1 [r_one]) 0 [] ltac:(lia) ltac:(xt))). reflexivity.
Qed.
(** a spin of case C with fewer than six numbers *)
Theorem C46_undefined_reachable_151 : exists h s, int32 (round_int (c1 (sbase h))) /\ rd_section sec_2_151 h 27 s = UB.
Proof.
  set (c0 := mkcont r_one r_one 0 0 1 0). set (c1' := mkcont r_tiny r_one 2 2 0 0). set (l := xlist 0 0 1 [r_one]).
  exists (head2 151), (mkst (pr_cont c0 27 2 151 ++ pr_cont c1' 27 2 151 ++ pr_cont c0 27 2 151 ++ pr_cont c0 27 2 151 ++ pr_list l 27 2 151 ++ []) 0). split; [cbn [head2 sbase c1]; rewrite round_one; split; lia|].
  assert (R0 : endf_cont c0) by (unfold c0; xt). assert (R1 : endf_cont c1') by (unfold c1'; xt). assert (R2 : endf_list l) by (unfold l; xt). assert (H : 0 < 151 < 1000) by lia.
  unfold rd_section. change (k_chk sec_2_151) with false. change (k_mf sec_2_151) with 2. rewrite (head2_ok 151). apply bind_ub. change (k_rmat sec_2_151 (head2 151) 27) with 27. change (k_rmt sec_2_151 (head2 151)) with 151.
  cbn [sec_2_151 k_read k_mf]. unfold rd_151. apply bind_ub. unfold rd_all, rd_sequence at 1. change (i32 (n1 (sbase (head2 151)))) with 1. erewrite bind_step; [|reflexivity]. change (Z.to_nat 1) with 1%nat. cbn [rd_n].
  apply bind_ub. unfold rd_resisotope. rewrite (bind_step _ _ _ _ _ (reads2c 151 c0 _ _ H R0)). erewrite bind_step; [|unfold lift, cast_int; cbn [c0 c1]; rewrite round_one; reflexivity].
  apply bind_ub. unfold rd_all, rd_sequence at 1. change (i32 (n1 c0)) with 1. erewrite bind_step; [|reflexivity]. change (Z.to_nat 1) with 1%nat. cbn [rd_n]. apply bind_ub.
  unfold rd_range. rewrite (bind_step _ _ _ _ _ (reads2c 151 c1' _ _ H R1)). change (i32 (n1 c1')) with 0. cbn [rd_radius Z.eqb]. erewrite bind_step; [|reflexivity].
  change (i32 (l1 c1')) with 2. change (i32 (l2 c1')) with 2. apply bind_ub. unfold rd_params. cbn [Z.eqb Pos.eqb]. apply bind_ub. unfold rd_unresolved.
  rewrite (bind_step _ _ _ _ _ (reads2c 151 c0 _ _ H R0)). apply bind_ub. unfold rd_all, rd_sequence at 1. change (i32 (n1 c0)) with 1. erewrite bind_step; [|reflexivity]. change (Z.to_nat 1) with 1%nat. cbn [rd_n]. apply bind_ub.
  unfold rd_jgroup. rewrite (bind_step _ _ _ _ _ (reads2c 151 c0 _ _ H R0)). apply bind_ub. unfold rd_all, rd_sequence at 1. change (i32 (n1 c0)) with 1. erewrite bind_step; [|reflexivity]. change (Z.to_nat 1) with 1%nat. cbn [rd_n]. apply bind_ub.
  unfold rd_checked. rewrite (bind_step _ _ _ _ _ (reads2 151 l _ [] H R2)). reflexivity.
Qed.
(** LFW decides as int but is stored as bool: with 2^32 the isotope says that fission widths are given, and its range
    has none *)
Theorem C46_lfw_refuted : exists t rs, rd_resisotope 27 2 151 (mkst t 0) = Ok (mkresisotope 1 r_one true rs) (mkst [] 5) /\ Forall is_A rs /\ rs <> [].
Proof.
  set (c0 := mkcont r_one r_one 0 4294967296 1 0). set (x := mkrange r_tiny r_one 0 (CaseA (mkunresolved r_one r_pi true [xlist 0 0 1 six_one])) None).
  exists (pr_cont c0 27 2 151 ++ pr_all pr_range [x] 27 2 151 ++ []), [x]. assert (A : is_A x) by (eexists; reflexivity). split; [|split; [auto|discriminate]].
  - assert (R0 : endf_cont c0) by (unfold c0; xt). assert (H : 0 < 151 < 1000) by lia. unfold rd_resisotope. rewrite (bind_step _ _ _ _ _ (reads2c 151 c0 _ _ H R0)).
    erewrite bind_step; [|unfold lift, cast_int; cbn [c0 c1]; rewrite round_one; reflexivity]. change (i32 (l2 c0)) with 0.
    assert (RX : rep_range x). { split; [cbn [x rg_el]; xt|]. split; [cbn [x rg_eh]; xt|]. split; [|discriminate]. split; [xt|]. split; [xt|]. constructor; [unfold six_one; xt|constructor]. }
    assert (IX : inv_range x /\ flag_ok 0 (rg_params x)). { split; [|reflexivity]. split; [|cbn [x rg_radius rg_naps]; lia]. split; [|cbn [un_lvalues]; l1]. constructor; [|constructor]. exists 1, 6. split; [nai|]. split; [nai|reflexivity]. }
    assert (C := cod_all _ _ _ _ _ (n1 c0) (cod_range 0)).
    rewrite (bind_step _ _ _ _ _ (co_reads _ _ _ _ _ C 27 2 151 [x] ltac:(split; [|split]; unfold in_cols; cbn; lia) ltac:(constructor; [exact RX|constructor]) ltac:(split; [constructor; [exact IX|constructor]|reflexivity]) [] _)).
    reflexivity.
Qed.
