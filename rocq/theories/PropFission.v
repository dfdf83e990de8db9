(** PropFission.v -- C63: the nine components of the energy release from fission, by name. *)
From Coq Require Import ZifyBool ZifyNat.
From Verif Require Import Base Disco DiscoProofs Records RecordProofs RecordRT RecordSound Layout Normal LineFacts RealRound RealProofs Spec Sections SecSpec Codec SectionProofs SecKit CodecKit
  PropRecords PropRecords3 Sec1 Sec1Spec Sec1Proofs PropSec1 Sec9 Sec9Spec Sec9Proofs PropSec9 Sec4 Sec4Spec Sec4Proofs Sec6 Sec6Spec Sec6Proofs Sec6Safe Sec33 Sec33Spec Sec33Proofs ExKit PropSec6 PropSec33
  Sec8 Sec8Spec Sec8Proofs PropSec8 Sec7 Sec7Spec Sec7Proofs PropSec7 Sec2 Sec2Spec Sec2Proofs PropSec2 PropSec28 PropViews PropParts Parts PropNamed Fission.
Open Scope Z_scope.

(** ** specification *)
(** the accessors, in the order of the standard: fission fragments, prompt neutrons, delayed neutrons, prompt gammas, delayed
    gammas, delayed betas, neutrinos, total less neutrinos, total *)
Definition point_accessors : list (listr -> out (list real)) := [tp_EFR; tp_ENP; tp_END; tp_EGP; tp_EGD; tp_EB; tp_ENU; tp_ER; tp_ET].
Definition order_accessors : list (listr -> out (list (list real))) := [poly_EFR; poly_ENP; poly_END; poly_EGP; poly_EGD; poly_EB; poly_ENU; poly_ER; poly_ET].
Definition table_accessors : list (fission_q -> option tab1) := [tabulatedEFR; tabulatedENP; tabulatedEND; tabulatedEGP; tabulatedEGD; tabulatedEB; tabulatedENU; tabulatedER; tabulatedET].

(** ** proofs *)
Lemma both_rows l : Forall (fun r => length r = 2%nat) (map both l).
Proof. apply Forall_map, Forall_forall. reflexivity. Qed.
Lemma chunk_both ps l : lB l = concat (map both ps) -> chunk_rows 2 l = map both ps.
Proof. intros E. unfold chunk_rows. rewrite E. apply chunks_rows; [lia|apply both_rows|lia]. Qed.
Lemma each_skip {A} m : forall j (l : list A), each m j l = each m 0 (skipn j l).
Proof. induction j as [|j IH]; intros l; [reflexivity|]. destruct l; [reflexivity|]. cbn [each skipn]. apply IH. Qed.
Lemma each_rows {A} (d : A) m k : (k < m)%nat -> forall rows : list (list A), Forall (fun r => length r = m) rows -> each m 0 (skipn k (concat rows)) = map (fun r => nth k r d) rows.
Proof.
  intros Hk rows F. induction F as [|r rows Hr F IH]; [cbn; now rewrite skipn_nil|]. cbn [concat map].
  rewrite skipn_app. replace (k - length r)%nat with 0%nat by lia. cbn [skipn].
  assert (E : exists x t, skipn k r = x :: t /\ nth k r d = x /\ length t = (m - 1 - k)%nat).
  { clear - Hk Hr. assert (L := skipn_length k r). destruct (skipn k r) as [|x t] eqn:E; [cbn in L; lia|]. exists x, t. split; [reflexivity|]. split; [|cbn in L; lia].
    rewrite <- (firstn_skipn k r), E. rewrite app_nth2 by (rewrite firstn_length; lia). rewrite firstn_length. replace (k - Nat.min k (length r))%nat with 0%nat by lia. reflexivity. }
  destruct E as (x & t & E & Nx & Lt). rewrite E, Nx. cbn [app each]. f_equal. rewrite each_skip, skipn_app, (skipn_all2 t) by lia. cbn [app].
  replace (m - 1 - length t)%nat with k by lia. exact IH.
Qed.
Lemma flat_both (nine : list (list (real * real))) : forall n, flat_map (fun i => concat (map (fun v => both (nth i v (rzero, rzero))) nine)) (seq 0 n)
  = concat (map both (concat (map (fun i => map (fun v => nth i v (rzero, rzero)) nine) (seq 0 n)))).
Proof.
  intros n. induction (seq 0 n) as [|i s IH]; [reflexivity|]. cbn [flat_map map concat]. rewrite map_app, concat_app, map_map. now f_equal.
Qed.
Lemma map_at {A} (d : A) (c : list A) n : length c = n -> map (fun i => nth i c d) (seq 0 n) = c.
Proof.
  intros <-. induction c as [|x c IH]; [reflexivity|]. cbn [length seq map]. f_equal. rewrite <- seq_shift, map_map. exact IH.
Qed.
Lemma range_made nine n l k : length nine = 9%nat -> (k < 9)%nat -> (0 < n)%nat -> Forall (fun v => length v = n) nine ->
  lB l = flat_map (fun i => concat (map (fun v => both (nth i v (rzero, rzero))) nine)) (seq 0 n) -> poly_range k l = Val (map both (nth k nine [])).
Proof.
  intros L9 Hk Hn F B. rewrite flat_both in B. unfold poly_range. rewrite (chunk_both _ _ B). rewrite map_length.
  assert (Rw : Forall (fun r : list (real * real) => length r = 9%nat) (map (fun i => map (fun v => nth i v (rzero, rzero)) nine) (seq 0 n))).
  { apply Forall_map, Forall_forall. intros i _. now rewrite map_length. }
  assert (Lc : length (concat (map (fun i => map (fun v => nth i v (rzero, rzero)) nine) (seq 0 n))) = (n * 9)%nat).
  { replace n with (length (map (fun i => map (fun v => nth i v (rzero, rzero)) nine) (seq 0 n))) at 2 by now rewrite map_length, seq_length. revert Rw. generalize (map (fun i => map (fun v => nth i v (rzero, rzero)) nine) (seq 0 n)).
    clear. induction 1 as [|r rs H _ IH]; [reflexivity|]. cbn [concat length]. rewrite app_length, IH. lia. }
  rewrite Lc. destruct (Nat.ltb_spec (n * 9) k); [lia|]. f_equal. rewrite skipn_map.
  assert (M : forall (l : list (real * real)), each 9 0 (map both l) = map both (each 9 0 l)).
  { clear. enough (H : forall l j, each 9 j (map both l) = map both (each 9 j l)) by (intros; apply H). induction l as [|a l IH]; intros j; [reflexivity|]. cbn [map each]. destruct j; [cbn [map]; f_equal|]; apply IH. }
  rewrite M. f_equal. rewrite (each_rows (rzero, rzero) 9 k Hk _ Rw), map_map.
  rewrite Forall_forall in F. assert (Lv : length (nth k nine []) = n) by (apply F, nth_In; lia).
  rewrite (map_ext _ (fun i => nth i (nth k nine []) (rzero, rzero))); [now apply map_at|].
  intros i. rewrite (nth_indep _ (rzero, rzero) (nth i (@nil (real * real)) (rzero, rzero))) by (rewrite map_length; lia). apply (map_nth (fun v => nth i v (rzero, rzero))).
Qed.

(** ** the thermal point values *)
Theorem C63_thermal_point : forall efr enp end_ egp egd eb enu er et, exists l, make_thermal_point efr enp end_ egp egd eb enu er et = Val l
  /\ tp_EFR l = Val (both efr) /\ tp_ENP l = Val (both enp) /\ tp_END l = Val (both end_) /\ tp_EGP l = Val (both egp) /\ tp_EGD l = Val (both egd)
  /\ tp_EB l = Val (both eb) /\ tp_ENU l = Val (both enu) /\ tp_ER l = Val (both er) /\ tp_ET l = Val (both et)
  /\ tp_E l = map both [efr; enp; end_; egp; egd; eb; enu; er; et].
Proof.
  intros. eexists. split; [reflexivity|]. unfold tp_EFR, tp_ENP, tp_END, tp_EGP, tp_EGD, tp_EB, tp_ENU, tp_ER, tp_ET. 
  match goal with |- context [tp_E ?l] => assert (E : tp_E l = map both [efr; enp; end_; egp; egd; eb; enu; er; et]) by (apply chunk_both; reflexivity) end.
  rewrite E. repeat (split; [reflexivity|]). reflexivity.
Qed.
(** whatever list was read: component k is the pair of numbers 2 k and 2 k + 1 *)
Theorem C63_thermal_point_read : forall l k f, len (lB l) = 18 -> nth_error point_accessors k = Some f ->
  f l = Val [nth (2 * k) (lB l) rzero; nth (2 * k + 1) (lB l) rzero].
Proof.
  intros l k f L E. assert (Hk : (k < 9)%nat) by (assert (nth_error point_accessors k <> None) by congruence; apply nth_error_Some in H; exact H).
  assert (F : f l = at_index (tp_E l) k) by (do 9 (destruct k as [|k]; [injection E as <-; reflexivity|]); lia). rewrite F. unfold tp_E.
  destruct (chunk_rows_nth 2 9 l ltac:(lia) ltac:(unfold len in L; lia)) as (R & _). rewrite R. unfold at_index.
  rewrite nth_error_map. rewrite (nth_error_nth' _ 0%nat) by (rewrite seq_length; exact Hk). cbn [option_map]. rewrite seq_nth by exact Hk. cbn [Nat.add]. f_equal.
  apply (nth_ext _ _ rzero rzero); [rewrite firstn_length, skipn_length; unfold len in L; cbn [length]; lia|].
  intros j Hj. rewrite firstn_length, skipn_length in Hj. assert (Q := row_element 2 9 l k j ltac:(lia) ltac:(unfold len in L; lia) Hk). unfold element in Q.
  destruct (nth_error _ j) as [y|] eqn:N in Q; [|discriminate]. rewrite (nth_error_nth _ _ rzero N). injection Q as ->. destruct j as [|[|j]]; [| |lia]; cbn [nth]; f_equal; lia.
Qed.

(** ** polynomials *)
Definition nine_of {A} (a b c d e f g h i : A) : list A := [a; b; c; d; e; f; g; h; i].
(** n values for each of the nine components: a polynomial of order n - 1 that gives them back *)
Theorem C63_polynomial : forall efr enp end_ egp egd eb enu er et n, 0 < n < 2 ^ 31 ->
  Forall (fun v : list (real * real) => len v = n) (nine_of efr enp end_ egp egd eb enu er et) ->
  exists l, make_polynomial9 efr enp end_ egp egd eb enu er et = Val l /\ poly_NPLY l = n - 1 /\ len (lB l) = 18 * n
  /\ poly_EFR l = Val (map both efr) /\ poly_ENP l = Val (map both enp) /\ poly_END l = Val (map both end_) /\ poly_EGP l = Val (map both egp) /\ poly_EGD l = Val (map both egd)
  /\ poly_EB l = Val (map both eb) /\ poly_ENU l = Val (map both enu) /\ poly_ER l = Val (map both er) /\ poly_ET l = Val (map both et)
  /\ poly_E l = Val (map (map both) (nine_of efr enp end_ egp egd eb enu er et)).
Proof.
  intros efr enp end_ egp egd eb enu er et n Hn F. unfold make_polynomial9, polynomial_list.
  assert (L0 : len efr = n) by (inversion F; assumption). fold (len efr). rewrite L0, (u32_id n) by lia.
  assert (G : existsb (fun v : list (real * real) => negb (Z.of_nat (length v) =? n)) [enp; end_; egp; egd; eb; enu; er; et] = false).
  { apply not_true_iff_false. intros K. apply existsb_exists in K. destruct K as (v & I1 & K). rewrite Forall_forall in F. specialize (F v (or_intror I1)). unfold len in F. lia. }
  cbv zeta. rewrite G. cbn [obind]. eexists. split; [reflexivity|].
  set (b := flat_map _ _). assert (F' : Forall (fun v : list (real * real) => length v = Z.to_nat n) (nine_of efr enp end_ egp egd eb enu er et)).
  { eapply Forall_impl; [|exact F]. intros v Hv. cbn beta in Hv. unfold len in Hv. lia. }
  assert (Lb : len b = 18 * n).
  { unfold b, len. rewrite <- (Z2Nat.id n) at 2 by lia. generalize (Z.to_nat n) as m. clear. intros m. generalize 0%nat. induction m as [|m IH]; intros s; [reflexivity|]. cbn [seq flat_map]. rewrite app_length, Nat2Z.inj_add, IH. cbn [map concat app length both]. lia. }
  unfold poly_NPLY. cbn [lL2 lB]. fold (len b). rewrite Lb. replace (18 * n / 18 - 1) with (n - 1) by (rewrite Z.mul_comm, Z.div_mul by lia; lia).
  rewrite i32_in by (unfold int32; lia). split; [reflexivity|]. split; [reflexivity|].
  set (l := mklist _ _ _ _ _ _). assert (R : forall k, (k < 9)%nat -> poly_range k l = Val (map both (nth k (nine_of efr enp end_ egp egd eb enu er et) []))).
  { intros k Hk. apply (range_made (nine_of efr enp end_ egp egd eb enu er et) (Z.to_nat n)); [reflexivity|exact Hk|lia|exact F'|reflexivity]. }
  unfold poly_EFR, poly_ENP, poly_END, poly_EGP, poly_EGD, poly_EB, poly_ENU, poly_ER, poly_ET, poly_E. cbn [seq map all_val].
  rewrite !R by lia. cbn [nth nine_of obind map]. repeat (split; [reflexivity|]). reflexivity.
Qed.
(** components of different sizes are refused *)
Theorem C63_polynomial_refused : forall efr enp end_ egp egd eb enu er et, len efr < 2 ^ 32 ->
  ~ Forall (fun v : list (real * real) => len v = len efr) (nine_of efr enp end_ egp egd eb enu er et) -> make_polynomial9 efr enp end_ egp egd eb enu er et = Throw EStd.
Proof.
  intros efr enp end_ egp egd eb enu er et H N. assert (P := len_nonneg efr). unfold make_polynomial9, polynomial_list. fold (len efr). rewrite (u32_id (len efr)) by lia. cbv zeta.
  destruct (existsb _ _) eqn:G; [reflexivity|]. exfalso. apply N. constructor; [reflexivity|]. apply Forall_forall. intros v Hv. unfold len at 1. destruct (Z.eqb_spec (Z.of_nat (length v)) (len efr)) as [E|E]; [exact E|].
  exfalso. assert (K : existsb (fun v : list (real * real) => negb (Z.of_nat (length v) =? len efr)) [enp; end_; egp; egd; eb; enu; er; et] = true); [|congruence].
  apply existsb_exists. exists v. split; [exact Hv|]. apply negb_true_iff, Z.eqb_neq. exact E.
Qed.
(** a polynomial that was read: component k has NPLY + 1 pairs, the i-th is made of the numbers 18 i + 2 k and 18 i + 2 k + 1 *)
Theorem C63_polynomial_read : forall l k f, inv_fission_q (Polynomial l) -> 0 <= lL2 l -> nth_error order_accessors k = Some f ->
  f l = Val (map (fun i => [nth (18 * i + 2 * k) (lB l) rzero; nth (18 * i + 2 * k + 1) (lB l) rzero]) (seq 0 (Z.to_nat (lL2 l + 1)))).
Proof.
  intros l k f (_ & L) P E. assert (Hk : (k < 9)%nat) by (assert (nth_error order_accessors k <> None) by congruence; apply nth_error_Some in H; exact H).
  assert (F : f l = poly_range k l) by (do 9 (destruct k as [|k]; [injection E as <-; reflexivity|]); lia). rewrite F. clear E F f. unfold poly_range.
  set (n := Z.to_nat (lL2 l + 1)). assert (L' : length (lB l) = (n * 18)%nat) by (unfold len in L; lia).
  destruct (split_rows 18 n (lB l) L') as (rows & E & Fr & Nr).
  destruct (chunk_rows_nth 2 (9 * n) l ltac:(lia) ltac:(lia)) as (R & Rn). rewrite Rn. destruct (Nat.ltb_spec (9 * n) k); [lia|]. f_equal. rewrite R.
  replace (map (fun i => firstn 2 (skipn (i * 2) (lB l))) (seq 0 (9 * n))) with (concat (map (fun i => map (fun j => [nth (18 * i + 2 * j) (lB l) rzero; nth (18 * i + 2 * j + 1) (lB l) rzero]) (seq 0 9)) (seq 0 n))).
  - rewrite (each_rows [] 9 k Hk) by (apply Forall_map, Forall_forall; intros; now rewrite map_length, seq_length). rewrite map_map. apply map_ext. intros i.
    rewrite (nth_indep _ [] ((fun j => [nth (18 * i + 2 * j) (lB l) rzero; nth (18 * i + 2 * j + 1) (lB l) rzero]) 0%nat)) by (rewrite map_length, seq_length; exact Hk).
    rewrite (map_nth (fun j => [nth (18 * i + 2 * j) (lB l) rzero; nth (18 * i + 2 * j + 1) (lB l) rzero])). rewrite seq_nth by exact Hk. reflexivity.
  - assert (Pr : forall i, (i < 9 * n)%nat -> firstn 2 (skipn (i * 2) (lB l)) = [nth (2 * i) (lB l) rzero; nth (2 * i + 1) (lB l) rzero]).
    { intros i Hi. apply (nth_ext _ _ rzero rzero); [rewrite firstn_length, skipn_length; cbn [length]; lia|].
      intros j Hj. rewrite firstn_length, skipn_length in Hj. assert (Q := row_element 2 (9 * n) l i j ltac:(lia) ltac:(lia) Hi). unfold element in Q.
      destruct (nth_error _ j) as [y|] eqn:N in Q; [|discriminate]. rewrite (nth_error_nth _ _ rzero N). injection Q as ->. destruct j as [|[|j]]; [| |lia]; cbn [nth]; f_equal; lia. }
    rewrite (map_ext_in _ (fun i => [nth (2 * i) (lB l) rzero; nth (2 * i + 1) (lB l) rzero])) by (intros i Hi; apply in_seq in Hi; apply Pr; lia).
    clear. generalize (lB l) as b. intros b. 
    enough (H : forall m s, concat (map (fun i => map (fun j => [nth (18 * i + 2 * j) b rzero; nth (18 * i + 2 * j + 1) b rzero]) (seq 0 9)) (seq s m))
       = map (fun i => [nth (2 * i) b rzero; nth (2 * i + 1) b rzero]) (seq (9 * s) (9 * m))) by (apply (H n 0%nat)).
    induction m as [|m IH]; intros s; [now rewrite Nat.mul_0_r|]. replace (9 * Datatypes.S m)%nat with (9 + 9 * m)%nat by lia. rewrite seq_app, map_app. cbn [seq map concat]. rewrite IH. 
    replace (9 * Datatypes.S s)%nat with (9 * s + 9)%nat by lia. f_equal. cbn [seq map]. repeat match goal with |- _ :: _ = _ :: _ => apply (f_equal2 (@cons _)) end; try reflexivity; f_equal; lia.
Qed.

(** ** tables *)
(** the accessor of a component gives the table that was given for it, or nothing *)
Theorem C63_tables : forall l cs q k f, Forall (fun c => component_ok c = true) cs -> make_tabulated l cs = Val q -> nth_error table_accessors k = Some f ->
  forall t, f q = Some t <-> In t cs /\ IFC t = Z.of_nat k + 1.
Proof.
  intros l cs q k f F M E t. assert (Hk : (k < 9)%nat) by (assert (nth_error table_accessors k <> None) by congruence; apply nth_error_Some in H; exact H).
  assert (T : f q = table_at k q) by (do 9 (destruct k as [|k]; [injection E as <-; reflexivity|]); lia). rewrite T. clear E T f.
  assert (K := C45_458_tables l cs F). rewrite M in K. destruct K as (_ & _ & r & -> & L & K). unfold table_at. specialize (K k t).
  assert (N : nth k r None = Some t <-> nth_error r k = Some (Some t)).
  { rewrite (nth_error_nth' r None) by lia. split; [now intros ->|congruence]. }
  rewrite N, K. split; intros (A & B); split; auto; rewrite Forall_forall in F; specialize (F t A); unfold component_ok in F; unfold slot, IFC in *; lia.
Qed.

(** ** the section *)
(** the three representations in a section, printed and read again *)
Theorem C63_section : forall za awr q, 0 < za < 10 ^ 7 -> real_le rzero awr ->
  exists x, make458 za awr q = Val x /\ s_za x = za /\ s_awr x = awr /\ s_body x = q
  /\ (endf_real awr -> rep_fission_q q -> inv_fission_q q -> section_survives sec_458 x).
Proof.
  intros za awr q Hz Ha. assert (I0 := ids_ok false za awr 458 ltac:(lia) Ha ltac:(lia)). unfold make458, make_section in *.
  destruct (_ || _); [discriminate|]. eexists. split; [reflexivity|]. do 3 (split; [reflexivity|]). intros Ra R V.
  apply (section_again _ _ _ _ C45_mt458); [split; [exact Hz|split; assumption]|split; [cbn; lia|reflexivity]|exact R|exact V].
Qed.
(** the text of the values of both *)
Lemma endf_both ps : Forall (fun p => endf_real (fst p) /\ endf_real (snd p)) ps -> Forall endf_real (concat (map both ps)).
Proof. induction 1 as [|p ps (A & B) _ IH]; [constructor|]. cbn [map concat both app]. constructor; [exact A|]. constructor; [exact B|exact IH]. Qed.
Definition endf_pairs (v : list (real * real)) : Prop := Forall (fun p => endf_real (fst p) /\ endf_real (snd p)) v.
Lemma endf_list_of l2 n2 b : in_cols 11 l2 -> in_cols 11 n2 -> Forall endf_real b -> Z.of_nat (length b) < 10 ^ 10 -> endf_list (mklist rzero rzero 0 l2 n2 b).
Proof.
  intros A B C D. pose proof (Nat2Z.is_nonneg (length b)). unfold endf_list. cbn [lC1 lC2 lL1 lL2 lN2 lB]. split; [apply endf_rzero|]. split; [apply endf_rzero|]. split; [unfold in_cols; cbn; lia|].
  split; [exact A|]. split; [exact B|]. split; [unfold in_cols; cbn; lia|exact C].
Qed.
Theorem C63_thermal_point_section : forall za awr efr enp end_ egp egd eb enu er et, 0 < za < 10 ^ 7 -> real_le rzero awr -> endf_real awr ->
  endf_pairs [efr; enp; end_; egp; egd; eb; enu; er; et] ->
  exists l x, make_thermal_point efr enp end_ egp egd eb enu er et = Val l /\ make458 za awr (ThermalPoint l) = Val x
  /\ LFC (s_body x) = 0 /\ NPLY (s_body x) = 0 /\ NFC (s_body x) = 0 /\ section_survives sec_458 x.
Proof.
  intros za awr efr enp end_ egp egd eb enu er et Hz Ha Ra F. eexists. destruct (C63_section za awr (ThermalPoint (mklist rzero rzero 0 0 9 (concat (map both [efr; enp; end_; egp; egd; eb; enu; er; et])))) Hz Ha) as (x & E & _ & _ & B & S).
  exists x. split; [reflexivity|]. split; [exact E|]. rewrite B. do 3 (split; [reflexivity|]). apply S; [exact Ra| |split; reflexivity].
  split; [|unfold len; cbn [lB map concat both app length]; lia]. apply endf_list_of; [unfold in_cols; cbn; lia|unfold in_cols; cbn; lia|exact (endf_both _ F)|cbn [map concat both app length]; lia].
Qed.
(** a polynomial of order 1 or more *)
Lemma polynomial_values nine n : Forall endf_pairs nine -> Forall endf_real (flat_map (fun i => concat (map (fun v => both (nth i v (rzero, rzero))) nine)) (seq 0 n)).
Proof.
  intros F. apply Forall_forall. intros x Hx. apply in_flat_map in Hx. destruct Hx as (i & _ & Hx). apply in_concat in Hx. destruct Hx as (c & Hc & Hx). apply in_map_iff in Hc. destruct Hc as (v & <- & Hv).
  rewrite Forall_forall in F. specialize (F v Hv). destruct (nth_in_or_default i v (rzero, rzero)) as [Hi|E].
  - unfold endf_pairs in F. rewrite Forall_forall in F. specialize (F _ Hi). destruct F as (A & B). cbn [both In] in Hx. destruct Hx as [<-|[<-|[]]]; assumption.
  - rewrite E in Hx. cbn in Hx. destruct Hx as [<-|[<-|[]]]; apply endf_rzero.
Qed.
Lemma polynomial_fits efr enp end_ egp egd eb enu er et n l : 0 < n < 10 ^ 8 -> Forall (fun v : list (real * real) => len v = n) (nine_of efr enp end_ egp egd eb enu er et) ->
  Forall endf_pairs (nine_of efr enp end_ egp egd eb enu er et) -> make_polynomial9 efr enp end_ egp egd eb enu er et = Val l ->
  lL2 l = n - 1 /\ endf_list l /\ len (lB l) = 18 * n.
Proof.
  intros Hn F P E. destruct (C63_polynomial efr enp end_ egp egd eb enu er et n ltac:(lia) F) as (l' & E' & N & L & _). rewrite E in E'. injection E' as <-.
  unfold make_polynomial9, polynomial_list in E. cbv zeta in E. destruct (existsb _ _); [discriminate|]. cbn [obind] in E. injection E as <-. unfold len in L. cbn [lL2 lB] in *. rewrite L.
  replace (18 * n / 18 - 1) with (n - 1) by (rewrite Z.mul_comm, Z.div_mul by lia; lia). split; [reflexivity|]. split; [|exact L].
  assert (D := Z.div_le_upper_bound (18 * n) 2 (9 * n) ltac:(lia) ltac:(lia)). assert (D' := Z.div_pos (18 * n) 2 ltac:(lia) ltac:(lia)).
  apply endf_list_of; [unfold in_cols; cbn; lia|unfold in_cols; cbn; lia|apply (polynomial_values (nine_of efr enp end_ egp egd eb enu er et)); exact P|rewrite L; lia].
Qed.
Theorem C63_polynomial_section : forall za awr efr enp end_ egp egd eb enu er et n, 0 < za < 10 ^ 7 -> real_le rzero awr -> endf_real awr -> 1 < n < 10 ^ 8 ->
  Forall (fun v : list (real * real) => len v = n) (nine_of efr enp end_ egp egd eb enu er et) -> Forall endf_pairs (nine_of efr enp end_ egp egd eb enu er et) ->
  exists l x, make_polynomial9 efr enp end_ egp egd eb enu er et = Val l /\ make458 za awr (Polynomial l) = Val x
  /\ LFC (s_body x) = 0 /\ NPLY (s_body x) = n - 1 /\ NFC (s_body x) = 0 /\ section_survives sec_458 x.
Proof.
  intros za awr efr enp end_ egp egd eb enu er et n Hz Ha Ra Hn F P. destruct (C63_polynomial efr enp end_ egp egd eb enu er et n ltac:(lia) F) as (l & E & N & _).
  destruct (polynomial_fits _ _ _ _ _ _ _ _ _ n l ltac:(lia) F P E) as (L2 & EL & Ln). destruct (C63_section za awr (Polynomial l) Hz Ha) as (x & Ex & _ & _ & B & S).
  exists l, x. split; [exact E|]. split; [exact Ex|]. rewrite B. split; [reflexivity|]. split; [exact N|]. split; [reflexivity|]. apply S; [exact Ra| |].
  - split; [exact EL|]. rewrite Ln. lia.
  - split; [lia|]. rewrite L2, Ln. lia.
Qed.
(** a polynomial of order 0 is a different object, but its text is that of a thermal point evaluation: it is read as one, with the same values *)
Theorem C63_order_zero_refuted : forall za awr efr enp end_ egp egd eb enu er et, 0 < za < 10 ^ 7 -> real_le rzero awr -> endf_real awr -> endf_pairs [efr; enp; end_; egp; egd; eb; enu; er; et] ->
  exists l x, make_polynomial9 [efr] [enp] [end_] [egp] [egd] [eb] [enu] [er] [et] = Val l /\ make_thermal_point efr enp end_ egp egd eb enu er et = Val l
  /\ make458 za awr (Polynomial l) = Val x /\ forall mat, 0 < mat < 10000 -> exists t, pr_section sec_458 x mat 1 = Val t
  /\ forall rest ln, exists ln', parse_section sec_458 mat (mkst (t ++ rest) ln) = Ok (mksect za awr 458 (ThermalPoint l)) (mkst rest ln').
Proof.
  intros za awr efr enp end_ egp egd eb enu er et Hz Ha Ra F. destruct (C63_thermal_point_section za awr efr enp end_ egp egd eb enu er et Hz Ha Ra F) as (l & y & M & E & _ & _ & _ & S).
  assert (I0 := ids_ok false za awr 458 ltac:(lia) Ha ltac:(lia)). unfold make458, make_section in *. destruct (_ || _); [discriminate|]. injection E as <-.
  exists l, (mksect za awr 458 (Polynomial l)). split; [injection M as <-; reflexivity|]. split; [exact M|]. split; [reflexivity|]. intros mat Hm. destruct (S mat Hm) as (t & E & P). exists t. split; [exact E|exact P].
Qed.
(** nothing for any component is accepted, also when it is read: the order is -1, and looking at any component but the first is undefined *)
Theorem C63_empty_refuted : exists l, make_polynomial9 [] [] [] [] [] [] [] [] [] = Val l /\ poly_NPLY l = -1 /\ poly_EFR l = Val []
  /\ Forall (fun f => f l = Undef) (tl order_accessors) /\ poly_E l = Undef /\ section_survives sec_458 (mksect 92235 r_one 458 (Polynomial l)).
Proof.
  eexists. split; [reflexivity|]. split; [reflexivity|]. split; [reflexivity|]. split; [repeat constructor|]. split; [reflexivity|].
  apply (section_again _ _ _ _ C45_mt458).
  - split; [cbn [s_za]; lia|]. split; [cbn [s_awr]; xt|]. apply rle_spec. reflexivity.
  - split; [cbn; lia|reflexivity].
  - split; [|reflexivity]. apply endf_list_of; [vm_compute; split; congruence|vm_compute; split; congruence|constructor|reflexivity].
  - split; [discriminate|reflexivity].
Qed.
(** ** the hypotheses are met *)
Example C63_example : let a := [(r_one, r_pi); (r_pi, r_tiny)] in
  Forall (fun v : list (real * real) => len v = 2) (nine_of a a a a a a a a (rev a)) /\ Forall endf_pairs (nine_of a a a a a a a a (rev a))
  /\ exists l, make_polynomial9 a a a a a a a a (rev a) = Val l /\ poly_ET l = Val [[r_pi; r_tiny]; [r_one; r_pi]].
Proof.
  cbv zeta. split; [repeat constructor|]. split.
  - assert (A : endf_real r_one /\ endf_real r_pi /\ endf_real r_tiny) by xt. destruct A as (A & B & C).
    repeat apply Forall_cons; try apply Forall_nil; cbn [fst snd]; auto.
  - eexists. split; vm_compute; reflexivity.
Qed.
