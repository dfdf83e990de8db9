(** PropCut.v -- C41: tapes cut anywhere before the end of their TEND line. *)
From Coq Require Import ZifyBool ZifyNat.
From Verif Require Import Base Disco DiscoProofs Records Spec Tree TreeSpec TreeProofs TreeGrammar PropTree.
Open Scope Z_scope.

(** indexing stops after the TEND line *)
Lemma index_tape_reads t T s : index_tape t = Ok T s -> tape_at t T (buf s).
Proof.
  intros E. unfold index_tape, rd_tape in E. apply on_err_ok in E.
  apply bind_ok in E. destruct E as (i & s1 & E1 & E).
  apply tpid_inv in E1. destruct E1 as (l & b & N & Ti & ->).
  unfold bind at 1, get_pos in E. cbn [buf] in E.
  apply bind_ok in E. destruct E as (d & s2 & E2 & E). pose proof (div_at_inv _ _ _ _ E2) as D.
  apply bind_ok in E. destruct E as (ms' & s3 & E3 & E). destruct s2 as [bb lnn]. cbn [buf] in *.
  apply tape_loop_inv in E3; [|exact D]. destruct E3 as (ms & H & ->). inversion E; subst.
  exists l, b, i, ms. auto.
Qed.
Lemma tape_at_grammar t T p : tape_at t T p -> exists src i u, tape_ok src
  /\ t = lines_text (x_tpid src :: flat_map mat_all (x_mats src)) ++ u /\ next_line u = (x_tend src, p)
  /\ tpid_line (x_tpid src) i /\ T = tape_tree src i.
Proof.
  intros (l & b & i & ms & N & Ti & H & ->). pose proof (mats_ne _ _ _ H) as Hb. destruct (next_line_full _ _ _ N Hb) as [-> Nl].
  destruct (mats_inv _ _ _ H) as (mats & u & -> & -> & S & Sep & Te & Eq & _).
  exists (mkts l mats (fst (next_line u))), i, u. unfold tape_ok. cbn [x_tpid x_mats x_tend].
  split; [|split; [now rewrite lines_cons|split; [|split; [exact Ti|reflexivity]]]].
  - split; [eauto|]. split; [exact Nl|]. split; [exact S|]. split; [exact Sep|]. split; [exact Te|]. apply next_line_noLF.
  - rewrite <- Eq. now destruct (next_line u).
Qed.
Lemma grammar_tape_at src i u p : tape_ok src -> tpid_line (x_tpid src) i -> next_line u = (x_tend src, p) ->
  tape_at (lines_text (x_tpid src :: flat_map mat_all (x_mats src)) ++ u) (tape_tree src i) p.
Proof.
  intros ((i' & Ti') & Nl & S & Sep & Te & Nt) Ti Eu.
  exists (x_tpid src), (lines_text (flat_map mat_all (x_mats src)) ++ u), i, (map mat_entry (x_mats src)).
  split; [rewrite lines_cons; now apply next_line_app|]. split; [exact Ti|]. split; [|reflexivity].
  replace p with (snd (next_line u)) by now rewrite Eu. eapply mats_fwd_tree; eauto. now rewrite Eu.
Qed.
Lemma tape_at_end t T p T' p' : tape_at t T p -> tape_at t T' p' -> p = p'.
Proof.
  intros H H'. apply tape_at_grammar in H, H'. destruct H as (a & i & u & A & -> & Eu & _). destruct H' as (b & j & v & B & E & Ev & _).
  assert (R : forall src w q, tape_ok src -> next_line w = (x_tend src, q) ->
    mats_gen mat_raw (lines_text (flat_map mat_all (x_mats src)) ++ w) (map (fun m => (m_mat m, raw_mat m)) (x_mats src)) q).
  { intros src w q (_ & _ & S & Sep & Te & _) Ew. replace q with (snd (next_line w)) by now rewrite Ew.
    apply (mats_fwd_raw _ (x_tend src)); auto; [|now rewrite Ew]. revert S. apply Forall_impl. exact mat_ok_shape. }
  rewrite !lines_cons in E. assert (Na : noLF (x_tpid a)) by apply A. assert (Nb : noLF (x_tpid b)) by apply B.
  assert (K := next_line_app (x_tpid a) (lines_text (flat_map mat_all (x_mats a)) ++ u) Na). rewrite E, (next_line_app _ _ Nb) in K. injection K as _ K.
  assert (P := R a u p A Eu). assert (Q := R b v p' B Ev). rewrite K in Q. exact (proj2 (mats_fun mat_raw mat_raw_det _ _ _ P _ _ Q)).
Qed.

Lemma lines_split ls ms u v : Forall noLF ls -> Forall noLF ms -> noLF u -> noLF v -> lines_text ls ++ u = lines_text ms ++ v -> u = v.
Proof.
  revert ms. induction ls as [|l ls IH]; intros [|m ms] F G Nu Nv E.
  - exact E.
  - exfalso. rewrite lines_cons in E. cbn in E. apply Nu. rewrite E. apply in_or_app. right. now left.
  - exfalso. rewrite lines_cons in E. cbn in E. apply Nv. rewrite <- E. apply in_or_app. right. now left.
  - rewrite !lines_cons in E. inversion F; inversion G; subst.
    assert (K := next_line_app l (lines_text ls ++ u) H1). rewrite E, (next_line_app m) in K by assumption. injection K as _ K. symmetry in K. exact (IH _ H2 H6 Nu Nv K).
Qed.

(** A tape cut anywhere before the end of the line at which indexing stops is rejected, unless
    what is left of the last line still reads as a TEND line. *)
Theorem C41_tape : forall t T s, index_tape t = Ok T s ->
  forall whole part rest, t = lines_text whole ++ part ++ rest -> Forall noLF whole -> noLF part ->
  (length (buf s) < length rest)%nat -> ~ tend_line part -> rejected (index_tape (lines_text whole ++ part)).
Proof.
  intros t T s E whole part rest Et Nw Np Hl Ht. apply index_tape_reads in E. apply C43_otherwise_rejected.
  intros (src & A & (u & Eu & Ex)). assert (Ti : exists i, tpid_line (x_tpid src) i) by apply A. destruct Ti as (i & Ti).
  destruct (next_line u) as [l p] eqn:N. cbn [fst] in Ex. subst l. destruct (next_line_cases _ _ _ N) as [U|[U Up]].
  - assert (H : tape_at t (tape_tree src i) (p ++ rest)).
    { rewrite Et, app_assoc, Eu, <- app_assoc. apply grammar_tape_at; [exact A|exact Ti|]. rewrite U, <- app_assoc. cbn [app]. apply next_line_app. apply A. }
    assert (K := tape_at_end _ _ _ _ _ E H). rewrite K, app_length in Hl. lia.
  - assert (Nu : noLF u) by (rewrite U; apply A). apply Ht. assert (K : part = u).
    { apply (lines_split whole _ part u Nw) in Eu; auto. exact (tape_noLF src A). }
    rewrite K, U. apply A.
Qed.
(** in particular one cut between two lines *)
Theorem C41_tape_lines : forall t T s, index_tape t = Ok T s ->
  forall whole rest, t = lines_text whole ++ rest -> Forall noLF whole -> (length (buf s) < length rest)%nat -> rejected (index_tape (lines_text whole)).
Proof.
  intros t T s E whole rest Et Nw Hl. rewrite <- (app_nil_r (lines_text whole)). apply (C41_tape t T s E whole [] rest); auto.
  - intros [].
  - intros (d & (_ & (K & _) & _) & _ & _ & _ & _ & _ & _ & _ & M & _). rewrite M in K. vm_compute in K. discriminate K.
Qed.

(** ** a tape of two materials *)
From Verif Require Import PropTree2.
Definition cut_text : text := lines_text (tape_all ex_tape).
Definition cut_all : list text := tape_all ex_tape.
Example C41_tape_example :
  (exists T s, index_tape cut_text = Ok T s /\ buf s = [] /\ tape_has T 125 = true)
  /\ cut_text = lines_text (firstn 5 cut_all) ++ firstn 20 (nth 5 cut_all []) ++ (skipn 20 (nth 5 cut_all []) ++ [LF] ++ lines_text (skipn 6 cut_all))
  /\ ~ tend_line (firstn 20 (nth 5 cut_all []))
  /\ rejected (index_tape (firstn (length cut_text - 13) cut_text)).
Proof.
  split; [do 2 eexists; split; [vm_compute; reflexivity|]; split; vm_compute; reflexivity|].
  split; [vm_compute; reflexivity|]. split.
  - intros (d & (_ & (K & _) & _) & _ & _ & _ & _ & _ & _ & _ & M & _). rewrite M in K. vm_compute in K. discriminate K.
  - unfold rejected. vm_compute. do 2 eexists. split; reflexivity.
Qed.
(** what is left of the TEND line is enough if it reaches column 70 *)
Example C41_tape_tend_refuted : exists n T s, (0 < n)%nat /\ index_tape (firstn (length cut_text - n) cut_text) = Ok T s.
Proof. exists 11%nat. do 2 eexists. split; [lia|]. vm_compute. reflexivity. Qed.
(** a tree file needs a line after the section it is cut behind: a repeated SEND is enough *)
Definition cut_file : file_src := mkfs [mkss 125 3 1 L_head1 [L_body; L_body] L_send [L_send]; ex_sec2] [canonical_end 125].
Example C41_tree_file_refuted : exists f g s r, index_file (lines_text (file_all cut_file)) = Ok f s
  /\ index_file (lines_text (firstn 5 (file_all cut_file))) = Ok g r /\ length (tf_secs f) = 2%nat /\ length (tf_secs g) = 1%nat
  /\ rejected (index_file (lines_text (firstn 4 (file_all cut_file)))).
Proof.
  do 4 eexists. split; [vm_compute; reflexivity|]. split; [vm_compute; reflexivity|]. split; [vm_compute; reflexivity|]. split; [vm_compute; reflexivity|].
  unfold rejected. vm_compute. do 2 eexists. split; reflexivity.
Qed.
(** a tree section ends at a line cut before its MT *)
Example C41_tree_section_refuted : exists x y s r, index_sec (lines_text (sec_all ex_sec1)) = Ok x s
  /\ index_sec (firstn 150 (lines_text (sec_all ex_sec1))) = Ok y r /\ length (ts_text x) = 324%nat /\ length (ts_text y) = 150%nat.
Proof. do 4 eexists. split; [vm_compute; reflexivity|]. split; [vm_compute; reflexivity|]. split; vm_compute; reflexivity. Qed.
