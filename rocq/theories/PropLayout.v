(** PropLayout.v -- C08 for sections, files, materials and tapes: every line that is printed. *)
From Coq Require Import ZifyBool ZifyNat.
From Verif Require Import Base Disco Records RealRound RealProofs Spec Sections SecSpec SectionProofs PropRecords PropRecords2 Normal Layout Tree Typed TypedSpec Classes PropClasses.
Open Scope Z_scope.

(** ** which MAT, MF, MT the lines of the printed text carry *)
Definition tails := list (Z * Z * Z).
Definition laid_out (ts : tails) (t : text) : Prop :=
  exists ls, t = flat_map (fun l => l ++ [LF]) ls /\ Forall2 (fun '(mat, mf, mt) l => endf_line mat mf mt l) ts ls.
(** NC() lines, then SEND *)
Definition section_tails (x : ysection) (mat mf : Z) : tails :=
  repeat (mat, mf, s_mt (projT2 x)) (Z.to_nat (nc_section (skind_of (projT1 x)) (projT2 x))) ++ [(mat, mf, 0)].
(** the sections, then FEND *)
Definition file_tails (f : yfile) (mat : Z) : tails :=
  flat_map (fun p => section_tails (snd p) mat (yf_mf f)) (yf_secs f) ++ [(mat, 0, 0)].
(** the files, then MEND *)
Definition material_tails (m : ymat) : tails :=
  flat_map (fun p => file_tails (snd p) (ym_mat m)) (ym_files m) ++ [(0, 0, 0)].
(** the identification, the materials, then TEND *)
Definition tape_tails (t : ytape) : tails :=
  [(0, 0, 0)] ++ flat_map material_tails (yt_mats t) ++ [(-1, 0, 0)].

Lemma laid_app a b t u : laid_out a t -> laid_out b u -> laid_out (a ++ b) (t ++ u).
Proof.
  intros (l & -> & F) (r & -> & G). exists (l ++ r). split; [now rewrite flat_map_app|]. now apply Forall2_app.
Qed.
Lemma laid_lines mat mf mt n t : endf_lines mat mf mt n t -> laid_out (repeat (mat, mf, mt) (Z.to_nat n)) t.
Proof.
  intros (ls & E & <- & F). exists ls. split; [exact E|]. rewrite Nat2Z.id. clear E. induction F; cbn; constructor; auto.
Qed.
Lemma laid_one mat mf mt t : endf_lines mat mf mt 1 t -> laid_out [(mat, mf, mt)] t.
Proof. intros H. exact (laid_lines _ _ _ _ _ H). Qed.
Lemma laid_concat {A} (f : A -> pout) (g : A -> tails) l : Forall (fun x => exists t, f x = Val t /\ laid_out (g x) t) l ->
  exists t, oconcat f l = Val t /\ laid_out (flat_map g l) t.
Proof.
  induction 1 as [|x l (t & E & L) _ (u & F & M)]; [exists []; split; [reflexivity|exists []; split; [reflexivity|constructor]]|].
  exists (t ++ u). split; [|cbn [flat_map]; now apply laid_app]. unfold oconcat in *. cbn [fold_right]. rewrite E, F. reflexivity.
Qed.
Lemma laid_end mat mf mt : good_tail mat mf mt -> laid_out [(mat, mf, mt)] (pr_sdiv (mksdiv zero_cont mat mf mt)).
Proof.
  intros H. apply laid_one. apply (C08_structure_layout (mksdiv zero_cont mat mf mt)); [|exact H].
  assert (M : moderate rzero) by (left; split; reflexivity). split; [exact M|]. split; [exact M|]. unfold ints_fit, in_cols. cbn. lia.
Qed.
(** ** C08 *)
Theorem C08_section : forall c x mat, 0 < mat < 10000 -> good_ids x -> good_number (skind_of c) x -> lib_rep c (s_body x) -> lib_inv c (s_body x) ->
  exists t, pr_section (skind_of c) x mat (k_mf (skind_of c)) = Val t /\ laid_out (section_tails (existT _ c x) mat (k_mf (skind_of c))) t.
Proof.
  intros c x mat Hm Hi Hn R I. destruct (so_round_trip _ _ _ (lib_core c) x mat Hm Hi Hn R I) as (body & E & L & _).
  exists (body ++ send_line mat (k_mf (skind_of c)) ++ [LF]). split; [exact E|]. unfold section_tails. cbn [projT1 projT2]. apply laid_app; [now apply laid_lines|].
  destruct (tk_mf _ _ _ _ _ _ lib_table c) as (Hf & _). destruct (send_text mat (k_mf (skind_of c)) Hm Hf) as (S & _). unfold pr_SEND, SEND in S.
  destruct (mat <? 1); [discriminate|]. destruct (k_mf (skind_of c) <? 1) in S; [discriminate|]. assert (S' : pr_sdiv (mksdiv zero_cont mat (k_mf (skind_of c)) 0) = send_line mat (k_mf (skind_of c)) ++ [LF]) by (clear - S; change (Val (pr_sdiv (mksdiv zero_cont mat (k_mf (skind_of c)) 0)) = Val (send_line mat (k_mf (skind_of c)) ++ [LF])) in S; congruence). rewrite <- S'. apply laid_end. unfold good_tail, in_cols. cbn. lia.
Qed.
Lemma laid_file f mat : 0 < mat < 10000 -> good_file f -> exists t, pr_yfile skind_of f mat = Val t /\ laid_out (file_tails f mat) t.
Proof.
  intros Hm (Hne & _ & F). unfold pr_yfile.
  assert (N30 : yf_mf f =? 30 = false).
  { destruct (yf_secs f) as [|p l]; [congruence|]. apply Forall_inv in F. destruct F as (_ & E & _). destruct (tk_mf _ _ _ _ _ _ lib_table (projT1 (snd p))) as (_ & _ & K). rewrite <- E. lia. }
  rewrite N30. destruct (laid_concat (fun p => pr_any skind_of (snd p) mat (yf_mf f)) (fun p => section_tails (snd p) mat (yf_mf f)) (yf_secs f)) as (t & E & L).
  { eapply Forall_impl; [|exact F]. intros [n [c x]] (_ & E & G). cbn [snd projT1 projT2] in *. destruct G as (G1 & G2 & G3 & G4). rewrite <- E. exact (C08_section c x mat Hm G1 G2 G3 G4). }
  rewrite E. unfold pr_FEND, FEND. destruct (_ <? _) eqn:X; [lia|]. cbn [obind oapp]. eexists. split; [reflexivity|]. apply laid_app; [exact L|].
  apply laid_end. unfold good_tail, in_cols. cbn. lia.
Qed.
Lemma laid_material m : good_material m -> exists t, pr_ymat skind_of m = Val t /\ laid_out (material_tails m) t.
Proof.
  intros (Hm & _ & _ & F). unfold pr_ymat.
  destruct (laid_concat (fun p => pr_yfile skind_of (snd p) (ym_mat m)) (fun p => file_tails (snd p) (ym_mat m)) (ym_files m)) as (t & E & L).
  { eapply Forall_impl; [|exact F]. intros [n f] (_ & G). exact (laid_file f _ Hm G). }
  rewrite E. cbn [oapp]. eexists. split; [reflexivity|]. apply laid_app; [exact L|]. apply laid_end. unfold good_tail, in_cols. cbn. lia.
Qed.
Theorem C08_printed_tape : forall t, good_tape t -> exists u, pr_ytape skind_of t = Val u /\ laid_out (tape_tails t) u.
Proof.
  intros t (H66 & Nl & _ & _ & _ & F). unfold pr_ytape.
  destruct (laid_concat (pr_ymat skind_of) material_tails (yt_mats t)) as (u & E & L).
  { eapply Forall_impl; [|exact F]. exact laid_material. }
  rewrite E. cbn [oapp]. eexists. split; [reflexivity|]. unfold tape_tails. apply laid_app; [|apply laid_app; [exact L|apply laid_end; unfold good_tail, in_cols; cbn; lia]].
  apply laid_one. apply layout_lines, layout_tpid; [lia|exact Nl|]. apply good_oktail. unfold good_tail, in_cols. cbn. lia.
Qed.
Theorem C08_printed_material : forall m, good_material m -> exists t, pr_ymat skind_of m = Val t /\ laid_out (material_tails m) t.
Proof. exact laid_material. Qed.
Theorem C08_printed_file : forall f mat, 0 < mat < 10000 -> good_file f -> exists t, pr_yfile skind_of f mat = Val t /\ laid_out (file_tails f mat) t.
Proof. exact laid_file. Qed.
(** the tape of C32_example: two materials with sections 1/452, 3/1 and 3/102 *)
Example C08_tape_example : good_tape ex_tape /\ tape_tails ex_tape =
  [(0, 0, 0)] ++ flat_map (fun _ => [(9228, 1, 452); (9228, 1, 452); (9228, 1, 452); (9228, 1, 0); (9228, 0, 0);
    (9228, 3, 1); (9228, 3, 1); (9228, 3, 1); (9228, 3, 1); (9228, 3, 0); (9228, 3, 102); (9228, 3, 102); (9228, 3, 102); (9228, 3, 102); (9228, 3, 0); (9228, 0, 0); (0, 0, 0)]) [0; 1]
  ++ [(-1, 0, 0)].
Proof. split; [exact (proj1 C32_example)|vm_compute; reflexivity]. Qed.
