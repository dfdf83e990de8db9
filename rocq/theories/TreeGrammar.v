(** TreeGrammar.v -- indexing accepts exactly the tapes described in TreeSpec.v. *)
From Coq Require Import ZifyBool.
From Verif Require Import Base Disco DiscoProofs Records RecordProofs RecordSound Spec LineFacts Tree TreeSpec TreeProofs.
Open Scope Z_scope.

(** ** the tree of a source *)
Definition sec_tree (s : sec_src) : tsec :=
  mktsec (x_mat s) (x_mf s) (x_mt s) (lines_text (sec_lines s)).
Definition sec_entry (s : sec_src) : Z * tsec := (x_mt s, sec_tree s).
Definition file_tree (f : file_src) : tfile :=
  mktfile (f_mat f) (f_mf f) (fold_place (map sec_entry (x_secs f)) []).
Definition file_entry (f : file_src) : Z * tfile := (f_mf f, file_tree f).
Definition mat_tree (m : mat_src) : tmat :=
  mktmat (m_mat m) (fold_place (map file_entry (x_files m)) []).
Definition mat_entry (m : mat_src) : Z * tmat := (m_mat m, mat_tree m).

(** ** kinds of lines *)
Lemma base0_iff c : base_is0 c = true <->
  rman (c1 c) = 0 /\ rman (c2 c) = 0 /\ l1 c = 0 /\ l2 c = 0 /\ n1 c = 0 /\ n2 c = 0.
Proof. unfold base_is0, ris0. lia. Qed.
Lemma send_iff l : send_line l <-> exists d, division_line l d /\ is_send d = true.
Proof.
  unfold send_line, end_line, is_send, is_send_permissive.
  split; intros (d & D & H); exists d; (split; [exact D|]).
  - rewrite !andb_true_iff, base0_iff. intuition lia.
  - rewrite !andb_true_iff, base0_iff in H. intuition lia.
Qed.
Lemma fend_iff l : fend_line l <-> exists d, division_line l d /\ is_fend d = true.
Proof.
  unfold fend_line, end_line, is_fend, is_fend_permissive, is_send_permissive.
  split; intros (d & D & H); exists d; (split; [exact D|]).
  - rewrite !andb_true_iff, base0_iff. intuition lia.
  - rewrite !andb_true_iff, base0_iff in H. intuition lia.
Qed.
Lemma mend_iff l : mend_line l <-> exists d, division_line l d /\ is_mend d = true.
Proof.
  unfold mend_line, end_line, is_mend, is_fend_permissive, is_send_permissive.
  split; intros (d & D & H); exists d; (split; [exact D|]).
  - rewrite !andb_true_iff, base0_iff. intuition lia.
  - rewrite !andb_true_iff, base0_iff in H. intuition lia.
Qed.
Lemma tend_iff l : tend_line l <-> exists d, division_line l d /\ is_tend d = true.
Proof.
  unfold tend_line, end_line, is_tend, is_fend_permissive, is_send_permissive.
  split; intros (d & D & H); exists d; (split; [exact D|]).
  - rewrite !andb_true_iff, base0_iff. intuition lia.
  - rewrite !andb_true_iff, base0_iff in H. intuition lia.
Qed.
Ltac kinds := unfold in_mf, in_mat, is_head, is_send, is_fend, is_mend, is_tend, is_fend_permissive, is_send_permissive in *; lia.
Lemma head_iff mat mf mt l : head_line mat mf mt l <->
  exists d, division_line l d /\ is_head d = true /\ smat d = mat /\ smf d = mf /\ smt d = mt.
Proof.
  unfold head_line, is_head. split.
  - intros (A & B & C & d & D & <- & <- & <-). exists d. split; [exact D|]. lia.
  - intros (d & D & H & <- & <- & <-). split; [lia|]. split; [lia|]. split; [lia|]. exists d. auto.
Qed.

Lemma lines_cons l ls r : lines_text (l :: ls) ++ r = l ++ LF :: (lines_text ls ++ r).
Proof. unfold lines_text. cbn [flat_map]. rewrite <- !app_assoc. reflexivity. Qed.
Lemma lines_app a b : lines_text (a ++ b) = lines_text a ++ lines_text b.
Proof. apply flat_map_app. Qed.
Lemma lines_cons' l ls : lines_text (l :: ls) = l ++ LF :: lines_text ls.
Proof. pose proof (lines_cons l ls []). now rewrite !app_nil_r in H. Qed.
Lemma div_at_line l d r : noLF l -> division_line l d -> div_at (l ++ LF :: r) d r.
Proof. intros N D. exists l. split; [now apply next_line_app|exact D]. Qed.
Lemma app_nonnil {A} (a b : list A) : b <> [] -> a ++ b <> [].
Proof. destruct a; [auto|discriminate]. Qed.
Lemma lines_nonnil ls r : r <> [] -> lines_text ls ++ r <> [].
Proof. apply app_nonnil. Qed.

Lemma lines_ne ls r : ls <> [] -> lines_text ls ++ r <> [].
Proof. destruct ls as [|l ls]; [congruence|]. intros _. rewrite lines_cons. destruct l; discriminate. Qed.

(** ** completeness *)
Lemma block_fwd body l rest : Forall body_line body -> last_line l -> Forall noLF (body ++ [l]) ->
  block (lines_text (body ++ [l]) ++ rest) rest.
Proof.
  induction body as [|a body IH]; intros Hb (m & f & Hl) N.
  - cbn [app]. rewrite lines_cons. inversion N; subst. eapply block_end; [|exact Hl].
    cbn. now apply next_line_app.
  - cbn [app] in *. rewrite lines_cons. inversion N; subst. inversion Hb as [|? ? (m' & f' & x & C & Hx) Hb']; subst.
    eapply block_more; [now apply next_line_app|exact C|exact Hx| |].
    + apply lines_ne. destruct body; discriminate.
    + apply IH; auto. exists m, f. exact Hl.
Qed.

Lemma upto_app a p : upto (a ++ p) p = a.
Proof.
  unfold upto. rewrite app_length. replace (length a + length p - length p)%nat with (length a + 0)%nat by lia.
  now rewrite firstn_app_2, app_nil_r.
Qed.

Lemma sec_fwd s rest : sec_ok s ->
  exists d, sec_at d (lines_text (sec_lines s) ++ rest) (sec_tree s) rest
    /\ div_at (lines_text (sec_lines s) ++ rest) d (lines_text (x_body s ++ [x_last s]) ++ rest)
    /\ is_head d = true /\ smat d = x_mat s /\ smf d = x_mf s /\ smt d = x_mt s.
Proof.
  intros (Hh & Hb & Hl & _ & N). apply head_iff in Hh. destruct Hh as (d & D & H & E1 & E2 & E3).
  unfold sec_all in N. apply Forall_app in N. destruct N as [N _].
  inversion N; subst.
  assert (D1 : div_at (lines_text (sec_lines s) ++ rest) d (lines_text (x_body s ++ [x_last s]) ++ rest)).
  { unfold sec_lines. rewrite lines_cons. now apply div_at_line. }
  exists d. split; [|auto 6]. exists (lines_text (x_body s ++ [x_last s]) ++ rest).
  split; [exact D1|]. split; [now apply block_fwd|]. rewrite upto_app. unfold sec_tree. congruence.
Qed.

Lemma skips_fwd isend es t d r : Forall (fun l => exists d, division_line l d /\ isend d = true) es ->
  Forall noLF es -> div_at t d r -> isend d = false -> t <> [] -> skips isend (lines_text es ++ t) t.
Proof.
  induction es as [|e es IH]; intros He N Hd Hi Ht.
  - eapply skips_stop; eauto.
  - inversion He as [|? ? (de & De & Ie) He']; inversion N as [|? ? Ne N']; subst. rewrite lines_cons.
    pose proof (div_at_line _ _ (lines_text es ++ t) Ne De) as D1.
    destruct es as [|e' es].
    + destruct r as [|c r].
      * eapply skips_last; eauto.
      * eapply skips_more; eauto. congruence.
    + inversion He' as [|? ? (de' & De' & Ie') He'']; subst. inversion N' as [|? ? Ne' N'']; subst.
      assert (D2 : div_at (lines_text (e' :: es) ++ t) de' (lines_text es ++ t)) by (rewrite lines_cons; now apply div_at_line).
      eapply skips_more; [exact D1|exact Ie|exact D2|now apply lines_nonnil|]. apply IH; auto.
Qed.
Lemma sends_skip es : Forall send_line es -> Forall (fun l => exists d, division_line l d /\ is_send d = true) es.
Proof. intros H. eapply Forall_impl; [|exact H]. intros a. apply send_iff. Qed.
Lemma fends_skip es : Forall fend_line es -> Forall (fun l => exists d, division_line l d /\ is_fend d = true) es.
Proof. intros H. eapply Forall_impl; [|exact H]. intros a. apply fend_iff. Qed.
Lemma mends_skip es : Forall mend_line es -> Forall (fun l => exists d, division_line l d /\ is_mend d = true) es.
Proof. intros H. eapply Forall_impl; [|exact H]. intros a. apply mend_iff. Qed.

(** first division of a list of sections *)
Lemma secs_first s rest : sec_ok s ->
  exists d r, div_at (lines_text (sec_all s) ++ rest) d r /\ is_head d = true
    /\ smat d = x_mat s /\ smf d = x_mf s /\ smt d = x_mt s /\ r <> [].
Proof.
  intros H. destruct (sec_fwd s (lines_text (x_sends s) ++ rest) H) as (d & _ & D & E & E1 & E2 & E3).
  exists d, (lines_text (x_body s ++ [x_last s]) ++ lines_text (x_sends s) ++ rest).
  unfold sec_all at 1. rewrite lines_app, <- app_assoc. split; [exact D|]. split; [exact E|].
  split; [exact E1|]. split; [exact E2|]. split; [exact E3|].
  rewrite lines_app, <- app_assoc. apply app_nonnil. rewrite lines_cons. apply app_nonnil. discriminate.
Qed.

(** the sections of a file, given what follows them *)
Lemma file_items_end mf secs v d' r' q : Forall sec_ok secs -> Forall (fun s => x_mf s = mf) secs ->
  div_at v d' r' -> v <> [] -> is_send d' = false -> items sec_at smt (in_mf mf) is_send is_fend v [] q ->
  items sec_at smt (in_mf mf) is_send is_fend (lines_text (flat_map sec_all secs) ++ v) (map sec_entry secs) q.
Proof.
  intros Hs Hm D' Hv S' I'.
  induction secs as [|s secs IH].
  - exact I'.
  - inversion Hs as [|? ? Ok Hs']; inversion Hm as [|? ? Em Hm']; subst. specialize (IH Hs' Hm').
    cbn [flat_map map]. unfold sec_all at 1. rewrite <- !app_assoc, lines_app, <- app_assoc.
    destruct (sec_fwd s (lines_text (x_sends s ++ flat_map sec_all secs) ++ v) Ok)
      as (ds & At & Ds & Hh & E1 & E2 & E3).
    unfold sec_entry at 1. rewrite <- E3. eapply items_cons; [exact Ds| |exact At| | |exact IH].
    + unfold in_mf. rewrite Hh, E2. cbn. lia.
    + now apply lines_nonnil.
    + rewrite lines_app, <- app_assoc.
      assert (exists d2 r2, div_at (lines_text (flat_map sec_all secs) ++ v) d2 r2 /\ is_send d2 = false) as (d2 & r2 & D2 & S2).
      { destruct secs as [|s2 secs].
        - exists d', r'. auto.
        - inversion Hs' as [|? ? Ok2 _]; subst. cbn [flat_map]. rewrite lines_app, <- app_assoc.
          destruct (secs_first s2 (lines_text (flat_map sec_all secs) ++ v) Ok2) as (d2 & r2 & D2 & H2 & _).
          exists d2, r2. split; [exact D2|kinds]. }
      destruct Ok as (_ & _ & _ & Se & Ns). unfold sec_all in Ns. apply Forall_app in Ns.
      eapply skips_fwd; [apply sends_skip, Se|tauto|exact D2|exact S2|now apply lines_nonnil].
Qed.
(** ... FEND lines or another division *)
Lemma file_items mf secs : Forall sec_ok secs -> Forall (fun s => x_mf s = mf) secs ->
  forall fends u d r, Forall fend_line fends -> Forall noLF fends ->
  div_at u d r -> u <> [] -> is_send d = false -> is_fend d = false ->
  (fends = [] -> in_mf mf d = false) ->
  items sec_at smt (in_mf mf) is_send is_fend (lines_text (flat_map sec_all secs ++ fends) ++ u)
        (map sec_entry secs) (lines_text (tl fends) ++ u).
Proof.
  intros Hs Hm fends u d r Hf Nf Hd Hu K1 K2 K3. rewrite lines_app, <- app_assoc.
  destruct fends as [|l fends].
  - eapply file_items_end; eauto. eapply items_stop; eauto.
  - inversion Hf as [|? ? Fl Hf']; inversion Nf as [|? ? Nl Nf']; subst. apply fend_iff in Fl. destruct Fl as (dl & Dl & Fl).
    pose proof (div_at_line _ _ (lines_text fends ++ u) Nl Dl) as D1. rewrite lines_cons.
    eapply file_items_end; [exact Hs|exact Hm|exact D1|now destruct l|kinds|].
    cbn [tl]. eapply items_close; [exact D1|kinds|exact Fl].
Qed.

Lemma fresh_nodup {A X} (k : A -> Z) (e : A -> X) l : NoDup (map k l) -> fresh (map (fun a => (k a, e a)) l) [].
Proof.
  intros H.
  assert (G : forall l acc, NoDup (map k l) -> Forall (fun a => mhas (k a) acc = false) l ->
              fresh (map (fun a => (k a, e a)) l) acc).
  { clear. induction l as [|a l IH]; intros acc N F; [exact I|]. cbn [map fresh].
    inversion N as [|? ? Na Nl]; inversion F as [|? ? Fa Fl]; subst. split; [exact Fa|]. apply IH; [exact Nl|].
    rewrite Forall_forall in *. intros b Hb. specialize (Fl b Hb).
    assert (k b <> k a) by (intros E; apply Na; rewrite <- E; now apply in_map).
    clear - Fl H. induction acc as [|[k' v] acc IH]; cbn [memplace].
    - unfold mhas. cbn. replace (k b =? k a) with false by lia. reflexivity.
    - destruct (k a <? k').
      + unfold mhas in *. cbn [mfind] in *. replace (k b =? k a) with false by lia. exact Fl.
      + destruct (k a =? k'); [exact Fl|]. unfold mhas in *. cbn [mfind] in *.
        destruct (k b =? k'); [exact Fl|]. apply IH, Fl. }
  apply G; [exact H|]. apply Forall_forall. reflexivity.
Qed.

(** ** sources without the requirement that numbers are different *)
Definition file_shape (f : file_src) : Prop :=
  x_secs f <> [] /\ Forall sec_ok (x_secs f) /\ Forall (fun s => x_mf s = f_mf f) (x_secs f)
  /\ Forall fend_line (x_fends f) /\ Forall noLF (x_fends f).
Definition fsep (f f' : file_src) : Prop := x_fends f = [] -> f_mf f <> f_mf f'.
Fixpoint fsep_all (l : list file_src) : Prop :=
  match l with
  | a :: (b :: _) as l' => fsep a b /\ fsep_all l'
  | _ => True
  end.
Definition mat_shape (m : mat_src) : Prop :=
  x_files m <> [] /\ Forall file_shape (x_files m)
  /\ Forall (fun f => f_mat f = m_mat m) (x_files m) /\ fsep_all (x_files m)
  /\ Forall mend_line (x_mends m) /\ Forall noLF (x_mends m).

(** the first division of a file, of a material *)
Lemma file_first f rest : file_shape f ->
  exists d r, div_at (lines_text (file_all f) ++ rest) d r /\ is_head d = true
    /\ smat d = f_mat f /\ smf d = f_mf f.
Proof.
  intros (Hn & Hs & _). destruct f as [[|s secs] fends]; [cbn in Hn; congruence|]. inversion Hs as [|? ? Ok _]; subst.
  unfold file_all. cbn [x_secs x_fends flat_map]. rewrite <- !app_assoc, lines_app, <- app_assoc.
  match goal with |- context [ lines_text (sec_all s) ++ ?R ] => destruct (secs_first s R Ok) as (d2 & r2 & D2 & H2 & E1 & E2 & _) end.
  exists d2, r2. auto.
Qed.
Lemma mat_first m rest : mat_shape m ->
  exists d r, div_at (lines_text (mat_all m) ++ rest) d r /\ is_head d = true
    /\ smat d = m_mat m /\ smf d = m_first_mf m.
Proof.
  intros (Hn & Hs & _). destruct m as [[|f files] mends]; [cbn in Hn; congruence|]. inversion Hs as [|? ? Ok _]; subst.
  unfold mat_all. cbn [x_files x_mends flat_map]. rewrite <- !app_assoc, lines_app, <- app_assoc.
  match goal with |- context [ lines_text (file_all f) ++ ?R ] => destruct (file_first f R Ok) as (d2 & r2 & D2 & H2 & E1 & E2) end.
  exists d2, r2. auto.
Qed.

(** generic in what is recorded of a file and of a material *)
Section Complete.
  Context {X : Type} (R : sdiv -> text -> X -> text -> Prop) (okf : file_src -> Prop) (g : file_src -> X).
  Hypothesis okf_shape : forall f, okf f -> file_shape f.
  Hypothesis okf_R : forall f u d r df rf, okf f -> div_at u d r -> u <> [] -> is_send d = false -> is_fend d = false ->
    (x_fends f = [] -> in_mf (f_mf f) d = false) ->
    div_at (lines_text (file_all f) ++ u) df rf -> is_head df = true -> smat df = f_mat f -> smf df = f_mf f ->
    R df (lines_text (file_all f) ++ u) (g f) (lines_text (tl (x_fends f)) ++ u).

  Lemma mat_items_end mat files v d' r' q : Forall okf files -> Forall (fun f => f_mat f = mat) files -> fsep_all files ->
    div_at v d' r' -> v <> [] -> is_send d' = false -> is_fend d' = false ->
    (x_fends (last files file0) = [] -> in_mf (f_mf (last files file0)) d' = false) ->
    items R smf (in_mat mat) is_fend is_mend v [] q ->
    items R smf (in_mat mat) is_fend is_mend (lines_text (flat_map file_all files) ++ v)
          (map (fun f => (f_mf f, g f)) files) q.
  Proof.
    intros Hs Hm Nd D' Hv S' F' L' I'.
    induction files as [|f files IH].
    - exact I'.
    - inversion Hs as [|? ? Ok Hs']; inversion Hm as [|? ? Em Hm']; subst.
      assert (Nd' : fsep_all files) by (destruct files; [exact I|exact (proj2 Nd)]).
      cbn [flat_map map]. rewrite lines_app, <- app_assoc.
      assert (exists d2 r2, div_at (lines_text (flat_map file_all files) ++ v) d2 r2 /\ is_send d2 = false
                /\ is_fend d2 = false /\ (x_fends f = [] -> in_mf (f_mf f) d2 = false)) as (d2 & r2 & D2 & S2 & F2 & L2).
      { destruct files as [|f2 files].
        - exists d', r'. auto.
        - inversion Hs' as [|? ? Ok2 _]; subst.
          cbn [flat_map]. rewrite lines_app, <- app_assoc.
          match goal with |- context [ lines_text (file_all f2) ++ ?R ] => destruct (file_first f2 R (okf_shape _ Ok2)) as (d2 & r2 & D2 & H2 & E1 & E2) end.
          exists d2, r2. split; [exact D2|]. split; [kinds|]. split; [kinds|]. intros Ef. unfold in_mf. rewrite H2, E2.
          pose proof (proj1 Nd Ef). cbn. lia. }
      destruct (file_first f (lines_text (flat_map file_all files) ++ v) (okf_shape _ Ok)) as (df & rf & Df & Hh & E1 & E2).
      pose proof (okf_R _ _ _ _ _ _ Ok D2 ltac:(now apply lines_nonnil) S2 F2 L2 Df Hh E1 E2) as At.
      rewrite <- E2. eapply items_cons; [exact Df| |exact At| | |].
      + unfold in_mat. rewrite Hh. cbn. lia.
      + now apply lines_nonnil, lines_nonnil.
      + destruct (okf_shape _ Ok) as (_ & _ & _ & Fe & Nfe).
        eapply skips_fwd; [| |exact D2|exact F2|now apply lines_nonnil].
        * apply fends_skip. destruct (x_fends f); cbn [tl]; [constructor|now inversion Fe].
        * destruct (x_fends f); cbn [tl]; [constructor|now inversion Nfe].
      + apply IH; auto. destruct files as [|f2 files]; [|exact L'].
        intros _. cbn. unfold in_mf. change (f_mf file0) with 0. kinds.
  Qed.
  Lemma mat_items mat files : Forall okf files -> Forall (fun f => f_mat f = mat) files -> fsep_all files ->
    forall mends u d r, Forall mend_line mends -> Forall noLF mends ->
    div_at u d r -> u <> [] -> is_send d = false -> is_fend d = false -> is_mend d = false ->
    (mends = [] -> in_mat mat d = false /\
       (x_fends (last files file0) = [] -> in_mf (f_mf (last files file0)) d = false)) ->
    items R smf (in_mat mat) is_fend is_mend (lines_text (flat_map file_all files ++ mends) ++ u)
          (map (fun f => (f_mf f, g f)) files) (lines_text (tl mends) ++ u).
  Proof.
    intros Hs Hm Nd mends u d r Hf Nf Hd Hu K1 K2 K3 K4. rewrite lines_app, <- app_assoc.
    destruct mends as [|l mends].
    - destruct (K4 eq_refl) as [K5 K6]. eapply mat_items_end; eauto. eapply items_stop; eauto.
    - inversion Hf as [|? ? Fl Hf']; inversion Nf as [|? ? Nl Nf']; subst. apply mend_iff in Fl. destruct Fl as (dl & Dl & Fl).
      pose proof (div_at_line _ _ (lines_text mends ++ u) Nl Dl) as D1. rewrite lines_cons.
      eapply mat_items_end; [exact Hs|exact Hm|exact Nd|exact D1|now destruct l|kinds|kinds|intros _; kinds|].
      cbn [tl]. eapply items_close; [exact D1|kinds|exact Fl].
  Qed.
End Complete.

Section Complete2.
  Context {X : Type} (R : sdiv -> text -> X -> text -> Prop) (okm : mat_src -> Prop) (g : mat_src -> X).
  Hypothesis okm_shape : forall m, okm m -> mat_shape m.
  Hypothesis okm_R : forall m u d r df rf, okm m -> div_at u d r -> u <> [] -> is_send d = false -> is_fend d = false -> is_mend d = false ->
    (x_mends m = [] -> in_mat (m_mat m) d = false /\
       (x_fends (last (x_files m) file0) = [] -> in_mf (f_mf (last (x_files m) file0)) d = false)) ->
    div_at (lines_text (mat_all m) ++ u) df rf -> is_head df = true -> smat df = m_mat m ->
    R df (lines_text (mat_all m) ++ u) (g m) (lines_text (tl (x_mends m)) ++ u).

  Lemma mats_fwd mats tend u : Forall okm mats -> separated_all mats -> tend_line tend ->
    next_line u = (tend, snd (next_line u)) ->
    mats_gen R (lines_text (flat_map mat_all mats) ++ u) (map (fun m => (m_mat m, g m)) mats) (snd (next_line u)).
  Proof.
    intros Hm Hs Ht Nu. apply tend_iff in Ht. destruct Ht as (dt & Dt & Ht).
    assert (Du : div_at u dt (snd (next_line u))) by (exists tend; auto).
    assert (Hu : u <> []) by (intros ->; apply div_at_nil in Du; kinds).
    induction mats as [|m mats IH].
    - cbn. eapply mats_end; eauto. kinds.
    - inversion Hm as [|? ? Ok Hm']; subst.
      assert (Hs' : separated_all mats) by (destruct mats; [exact I|exact (proj2 Hs)]).
      cbn [flat_map map]. rewrite lines_app, <- app_assoc. specialize (IH Hm' Hs').
      assert (exists d2 r2, div_at (lines_text (flat_map mat_all mats) ++ u) d2 r2 /\ is_send d2 = false
                /\ is_fend d2 = false /\ is_mend d2 = false /\
                (x_mends m = [] -> in_mat (m_mat m) d2 = false /\
                   (x_fends (last (x_files m) file0) = [] -> in_mf (f_mf (last (x_files m) file0)) d2 = false)))
        as (d2 & r2 & D2 & S2 & F2 & M2 & L2).
      { destruct mats as [|m2 mats].
        - exists dt, (snd (next_line u)). cbn. split; [exact Du|]. split; [kinds|]. split; [kinds|]. split; [kinds|].
          intros _. split; [kinds|]. intros _. kinds.
        - inversion Hm' as [|? ? Ok2 _]; subst. cbn [flat_map]. rewrite lines_app, <- app_assoc.
          match goal with |- context [ lines_text (mat_all m2) ++ ?R ] => destruct (mat_first m2 R (okm_shape _ Ok2)) as (d2 & r2 & D2 & H2 & E1 & E2) end.
          exists d2, r2. split; [exact D2|]. split; [kinds|]. split; [kinds|]. split; [kinds|].
          intros E. destruct Hs as [Sep _]. destruct (Sep E) as [Sm Sf]. split.
          + unfold in_mat. rewrite H2, E1. cbn. lia.
          + intros E'. specialize (Sf E'). unfold in_mf. rewrite H2, E2. cbn. lia. }
      destruct (mat_first m (lines_text (flat_map mat_all mats) ++ u) (okm_shape _ Ok)) as (df & rf & Df & Hh & E1 & E2).
      pose proof (okm_R _ _ _ _ _ _ Ok D2 ltac:(now apply lines_nonnil) S2 F2 M2 L2 Df Hh E1) as At.
      rewrite <- E1. eapply mats_cons; [exact Df|exact Hh|exact At| |exact IH].
      destruct (okm_shape _ Ok) as (_ & _ & _ & _ & Fe & Nfe).
      eapply skips_fwd; [| |exact D2|exact M2|now apply lines_nonnil].
      + apply mends_skip. destruct (x_mends m); cbn [tl]; [constructor|now inversion Fe].
      + destruct (x_mends m); cbn [tl]; [constructor|now inversion Nfe].
  Qed.
End Complete2.

(** instance: the trees *)
Lemma file_ok_shape f : file_ok f -> file_shape f.
Proof. unfold file_ok, file_shape. tauto. Qed.
Lemma nodup_fsep l : NoDup (map f_mf l) -> fsep_all l.
Proof.
  induction l as [|a [|b l] IH]; intros N; [exact I|exact I|]. inversion N as [|? ? Na Nl]; subst. split.
  - intros _ E. apply Na. rewrite E. left. reflexivity.
  - apply IH, Nl.
Qed.
Lemma mat_ok_shape m : mat_ok m -> mat_shape m.
Proof.
  intros (A & B & C & D & E). split; [exact A|]. split; [eapply Forall_impl; [apply file_ok_shape|exact B]|].
  split; [exact C|]. split; [now apply nodup_fsep|exact E].
Qed.
Lemma file_fwd f u d r df rf : file_ok f -> div_at u d r -> u <> [] -> is_send d = false -> is_fend d = false ->
  (x_fends f = [] -> in_mf (f_mf f) d = false) ->
  div_at (lines_text (file_all f) ++ u) df rf -> is_head df = true -> smat df = f_mat f -> smf df = f_mf f ->
  file_at df (lines_text (file_all f) ++ u) (file_tree f) (lines_text (tl (x_fends f)) ++ u).
Proof.
  intros (Hn & Hs & Hm & Nd & Hf & Nf) Hd Hu K1 K2 K3 D H E1 E2.
  pose proof (file_items _ _ Hs Hm _ _ _ _ Hf Nf Hd Hu K1 K2 K3) as It.
  split; [eauto|]. exists (map sec_entry (x_secs f)). rewrite E2. split; [exact It|].
  split; [apply (fresh_nodup x_mt sec_tree); exact Nd|]. unfold file_tree. now rewrite E1.
Qed.
Lemma mat_fwd m u d r df rf : mat_ok m -> div_at u d r -> u <> [] -> is_send d = false -> is_fend d = false -> is_mend d = false ->
  (x_mends m = [] -> in_mat (m_mat m) d = false /\
     (x_fends (last (x_files m) file0) = [] -> in_mf (f_mf (last (x_files m) file0)) d = false)) ->
  div_at (lines_text (mat_all m) ++ u) df rf -> is_head df = true -> smat df = m_mat m ->
  mat_at df (lines_text (mat_all m) ++ u) (mat_tree m) (lines_text (tl (x_mends m)) ++ u).
Proof.
  intros (Hn & Hs & Hm & Nd & Hf & Nf) Hd Hu K1 K2 K3 K4 D H E1.
  pose proof (mat_items file_at file_ok file_tree file_ok_shape file_fwd _ _ Hs Hm (nodup_fsep _ Nd) _ _ _ _ Hf Nf Hd Hu K1 K2 K3 K4) as It.
  split; [eauto|]. exists (map file_entry (x_files m)). rewrite E1. split; [exact It|].
  split; [apply (fresh_nodup f_mf file_tree); exact Nd|]. unfold mat_tree. reflexivity.
Qed.
Lemma mats_fwd_tree mats tend u : Forall mat_ok mats -> separated_all mats -> tend_line tend ->
  next_line u = (tend, snd (next_line u)) ->
  mats_at (lines_text (flat_map mat_all mats) ++ u) (map mat_entry mats) (snd (next_line u)).
Proof. apply (mats_fwd mat_at mat_ok mat_tree mat_ok_shape mat_fwd). Qed.

(** instance: the bare numbers, without the requirement that they are different *)
Definition file_raw (d : sdiv) (t : text) (l : list (Z * tsec)) (p : text) : Prop :=
  items sec_at smt (in_mf (smf d)) is_send is_fend t l p.
Definition mat_raw (d : sdiv) (t : text) (l : list (Z * list (Z * tsec))) (p : text) : Prop :=
  items file_raw smf (in_mat (smat d)) is_fend is_mend t l p.
Definition raw_file (f : file_src) := map sec_entry (x_secs f).
Definition raw_mat (m : mat_src) := map (fun f => (f_mf f, raw_file f)) (x_files m).
Lemma mats_fwd_raw mats tend u : Forall mat_shape mats -> separated_all mats -> tend_line tend ->
  next_line u = (tend, snd (next_line u)) ->
  mats_gen mat_raw (lines_text (flat_map mat_all mats) ++ u) (map (fun m => (m_mat m, raw_mat m)) mats) (snd (next_line u)).
Proof.
  apply (mats_fwd mat_raw mat_shape raw_mat (fun _ H => H)).
  intros m u0 d r df rf (Hn & Hs & Hm & Nd & Hf & Nf) Hd Hu K1 K2 K3 K4 D H E1.
  unfold mat_raw. rewrite E1.
  refine (mat_items file_raw file_shape raw_file (fun _ H => H) _ _ _ Hs Hm Nd _ _ _ _ Hf Nf Hd Hu K1 K2 K3 K4).
  clear. intros f u d r df rf (Hn & Hs & Hm & Hf & Nf) Hd Hu K1 K2 K3 D H E1 E2.
  unfold file_raw. rewrite E2. apply (file_items _ _ Hs Hm _ _ _ _ Hf Nf Hd Hu K1 K2 K3).
Qed.

(** ** determinism *)
Lemma block_fun r p p' : block r p -> block r p' -> p = p'.
Proof.
  intros H. revert p'. induction H as [l b m f r N (C1 & C2 & C3)|l b m f x r p N (C1 & C2 & C3) Hx Hb _ IH]; intros p' H';
    inversion H' as [l' b' m' f' r' N' (C1' & C2' & C3')|l' b' m' f' x' r' p2 N' (C1' & C2' & C3') Hx' Hb' Hk']; subst;
    rewrite N in N'; injection N' as <- <-; try congruence; auto.
Qed.
Lemma skips_fun isend t a b : skips isend t a -> skips isend t b -> a = b.
Proof.
  intros H. revert b. induction H as [t d r Hd He|t d r Hd He d' Hd'|t d r t' Hd He d' r' Hd' Hr' Hs IH]; intros b H';
    inversion H' as [t2 d2 r2 Hd2 He2|t2 d2 r2 Hd2 He2 d2' Hd2'|t2 d2 r2 t2' Hd2 He2 d2' r2' Hd2' Hr2' Hs2]; subst;
    destruct (div_at_fun _ _ _ _ _ Hd Hd2) as [<- <-]; try congruence; auto.
  - destruct (div_at_fun _ _ _ _ _ Hd' Hd2') as [_ E]. congruence.
  - destruct (div_at_fun _ _ _ _ _ Hd' Hd2') as [_ E]. congruence.
Qed.
Definition det {X} (R : sdiv -> text -> X -> text -> Prop) : Prop :=
  forall d t x p x' p', R d t x p -> R d t x' p' -> x = x' /\ p = p'.
Lemma items_fun {X} (R : sdiv -> text -> X -> text -> Prop) key same isend closing : det R -> forall t l p,
  items R key same isend closing t l p -> forall l' p', items R key same isend closing t l' p' -> l = l' /\ p = p'.
Proof.
  intros HR t l p H. induction H as [t d r Hd Hs Hc|t d r Hd Hs Hc|t d r x p t' l q Hd Hs Hx Hp Hk Hi IH]; intros l2 p2 H';
    inversion H' as [t3 d3 r3 Hd3 Hs3 Hc3|t3 d3 r3 Hd3 Hs3 Hc3|t3 d3 r3 x3 p3 t3' l3 q3 Hd3 Hs3 Hx3 Hp3 Hk3 Hi3]; subst;
    destruct (div_at_fun _ _ _ _ _ Hd Hd3) as [<- <-]; try congruence; auto.
  destruct (HR _ _ _ _ _ _ Hx Hx3) as [<- <-]. rewrite <- (skips_fun _ _ _ _ Hk Hk3) in Hi3.
  destruct (IH _ _ Hi3) as [<- <-]. auto.
Qed.
Lemma sec_det : det sec_at.
Proof.
  intros d t x p x' p' (r & D & B & ->) (r' & D' & B' & ->). destruct (div_at_fun _ _ _ _ _ D D') as [_ <-].
  rewrite (block_fun _ _ _ B B'). auto.
Qed.
Lemma file_raw_det : det file_raw.
Proof. intros d t x p x' p' H H'. eapply items_fun; eauto using sec_det. Qed.
Lemma mat_raw_det : det mat_raw.
Proof. intros d t x p x' p' H H'. eapply items_fun; eauto using file_raw_det. Qed.
Lemma mats_fun {X} (R : sdiv -> text -> X -> text -> Prop) : det R -> forall t l p,
  mats_gen R t l p -> forall l' p', mats_gen R t l' p' -> l = l' /\ p = p'.
Proof.
  intros HR t l p H. induction H as [t d r Hd Hh Ht|t d r m p t' l q Hd Hh Hx Hk Hi IH]; intros l2 p2 H';
    inversion H' as [t3 d3 r3 Hd3 Hh3 Ht3|t3 d3 r3 x3 p3 t3' l3 q3 Hd3 Hh3 Hx3 Hk3 Hi3]; subst;
    destruct (div_at_fun _ _ _ _ _ Hd Hd3) as [<- <-]; try congruence; auto.
  destruct (HR _ _ _ _ _ _ Hx Hx3) as [<- <-]. rewrite <- (skips_fun _ _ _ _ Hk Hk3) in Hi3.
  destruct (IH _ _ Hi3) as [<- <-]. auto.
Qed.

(** ** soundness *)
Lemma next_line_full t l b : next_line t = (l, b) -> b <> [] -> t = l ++ LF :: b /\ noLF l.
Proof.
  intros N Hb. split.
  - destruct (next_line_cases _ _ _ N) as [E|[_ E]]; congruence.
  - pose proof (next_line_noLF t) as H. now rewrite N in H.
Qed.
Lemma block_inv r p : block r p -> p <> [] ->
  exists body l, r = lines_text (body ++ [l]) ++ p /\ Forall body_line body /\ last_line l /\ Forall noLF (body ++ [l]).
Proof.
  induction 1 as [l b m f r N C|l b m f x r p N C Hx Hb _ IH]; intros Hp.
  - destruct (next_line_full _ _ _ N Hp) as [-> Nl]. exists [], l. cbn [app]. rewrite lines_cons. cbn.
    split; [reflexivity|]. split; [constructor|]. split; [exists m, f; exact C|]. constructor; auto.
  - destruct (next_line_full _ _ _ N Hb) as [-> Nl]. destruct (IH Hp) as (body & l' & -> & B & L & NL).
    exists (l :: body), l'. cbn [app]. rewrite lines_cons. split; [reflexivity|].
    split; [constructor; [exists m, f, x; auto|exact B]|]. split; [exact L|]. constructor; auto.
Qed.
Lemma block_nil p : block [] p -> p = [].
Proof. intros H. apply block_le in H. destruct p; [reflexivity|cbn in H; lia]. Qed.

Lemma sec_inv d t x p : sec_at d t x p -> is_head d = true -> p <> [] ->
  exists h body l, let s := mkss (smat d) (smf d) (smt d) h body l [] in
    t = lines_text (sec_lines s) ++ p /\ x = sec_tree s /\ sec_ok s.
Proof.
  intros (r & (h & N & D) & B & ->) H Hp.
  assert (r <> []) by (intros ->; apply block_nil in B; congruence).
  destruct (next_line_full _ _ _ N H0) as [-> Nh].
  destruct (block_inv _ _ B Hp) as (body & l & -> & Bb & Bl & NL).
  exists h, body, l. cbn zeta. set (s := mkss _ _ _ _ _ _ _).
  assert (E : h ++ LF :: lines_text (body ++ [l]) ++ p = lines_text (sec_lines s) ++ p).
  { unfold sec_lines, s. cbn [x_head x_body x_last]. now rewrite lines_cons. }
  split; [exact E|]. split.
  - rewrite E, upto_app. reflexivity.
  - unfold sec_ok, s. cbn [x_mat x_mf x_mt x_head x_body x_last x_sends]. split; [|split; [exact Bb|split; [exact Bl|split]]].
    + apply head_iff. exists d. auto.
    + constructor.
    + unfold sec_all, sec_lines. cbn [x_head x_body x_last x_sends]. rewrite app_nil_r. constructor; auto.
Qed.

Lemma div_at_ne t d r : div_at t d r -> r <> [] -> t <> [].
Proof. intros D H ->. apply div_at_nil in D. tauto. Qed.
Lemma div_at_full t d r : div_at t d r -> r <> [] -> exists l, t = l ++ LF :: r /\ noLF l /\ division_line l d.
Proof. intros (l & N & D) H. destruct (next_line_full _ _ _ N H) as [-> Nl]. exists l. auto. Qed.

Lemma skips_inv isend t t' : skips isend t t' -> t' <> [] ->
  exists es, t = lines_text es ++ t' /\ Forall (fun l => exists d, division_line l d /\ isend d = true) es /\ Forall noLF es.
Proof.
  induction 1 as [t d r Hd He|t d r Hd He d' Hd'|t d r t' Hd He d' r' Hd' Hr' Hs IH]; intros Ht.
  - exists []. cbn. auto.
  - destruct (div_at_full _ _ _ Hd Ht) as (l & -> & N & D). exists [l]. rewrite lines_cons. cbn. split; [reflexivity|].
    split; repeat constructor; eauto.
  - destruct (div_at_full _ _ _ Hd (div_at_ne _ _ _ Hd' Hr')) as (l & -> & N & D).
    destruct (IH Ht) as (es & -> & F & Nn). exists (l :: es). rewrite lines_cons. split; [reflexivity|].
    split; constructor; eauto.
Qed.

Lemma length_ne {A} (a b : list A) : (length a <= length b)%nat -> a <> [] -> b <> [].
Proof. destruct a, b; cbn; try congruence; lia. Qed.

(** the sections of a file *)
Lemma file_items_inv mf t l p : items sec_at smt (in_mf mf) is_send is_fend t l p -> p <> [] ->
  exists secs fe, t = lines_text (flat_map sec_all secs ++ fe) ++ p /\ l = map sec_entry secs
    /\ Forall sec_ok secs /\ Forall (fun s => x_mf s = mf) secs
    /\ Forall fend_line fe /\ Forall noLF fe
    /\ (fe = [] -> forall d r, div_at p d r -> in_mf mf d = false)
    /\ (forall d r, div_at t d r -> in_mf mf d = true -> secs <> [] /\ x_mat (hd sec0 secs) = smat d).
Proof.
  induction 1 as [t d r Hd Hs Hc|t d r Hd Hs Hc|t d r x p t' l q Hd Hs HR Hp Hk Hi IH]; intros Hq.
  - destruct (div_at_full _ _ _ Hd Hq) as (l & -> & N & D). exists [], [l]. cbn [flat_map app]. rewrite lines_cons. cbn.
    split; [reflexivity|]. split; [reflexivity|]. split; [constructor|]. split; [constructor|].
    split; [constructor; [apply fend_iff; eauto|constructor]|]. split; [constructor; [exact N|constructor]|].
    split; [discriminate|]. intros d0 r0 D0 E0. destruct (div_at_fun _ _ _ _ _ Hd D0). congruence.
  - exists [], []. cbn. split; [reflexivity|]. split; [reflexivity|]. do 4 (split; [constructor|]). split.
    + intros _ d' r' D'. destruct (div_at_fun _ _ _ _ _ Hd D') as [<- _]. exact Hs.
    + intros d0 r0 D0 E0. destruct (div_at_fun _ _ _ _ _ Hd D0). congruence.
  - assert (Ht' : t' <> []).
    { eapply length_ne; [|exact Hq]. eapply (items_le _ _ _ _ _ _ section_inner (in_mf_head mf)); eauto. }
    destruct (IH Hq) as (secs & fe & -> & -> & S & M & F & NF & G & _).
    destruct (skips_inv _ _ _ Hk Ht') as (es & -> & Fe & Ne).
    destruct (sec_inv _ _ _ _ HR (in_mf_head _ _ Hs) Hp) as (h & body & ll & Et & -> & Ok). cbn zeta in *.
    exists (mkss (smat d) (smf d) (smt d) h body ll es :: secs), fe.
    split.
    { rewrite Et. cbn [flat_map]. unfold sec_all at 2. rewrite <- !app_assoc, !lines_app, <- !app_assoc. reflexivity. }
    split; [reflexivity|]. split.
    { constructor; [|exact S]. destruct Ok as (O1 & O2 & O3 & O4 & O5). split; [exact O1|]. split; [exact O2|].
      split; [exact O3|]. split.
      - eapply Forall_impl; [|exact Fe]. intros a. apply send_iff.
      - unfold sec_all in *. apply Forall_app in O5. apply Forall_app. split; [apply O5|exact Ne]. }
    split; [constructor; [|exact M]; cbn; kinds|]. split; [exact F|]. split; [exact NF|]. split; [exact G|].
    intros d0 r0 D0 E0. destruct (div_at_fun _ _ _ _ _ Hd D0) as [<- _]. split; [discriminate|reflexivity].
Qed.

Lemma memplace_has {A} k k' (v : A) acc : mhas k acc = true -> mhas k (memplace k' v acc) = true.
Proof.
  unfold mhas. induction acc as [|[a w] acc IH]; cbn; [discriminate|].
  destruct (Z.eqb_spec k a).
  - intros _. destruct (Z.ltb_spec k' a); cbn.
    + destruct (k =? k'); [reflexivity|]. subst. now rewrite Z.eqb_refl.
    + destruct (k' =? a); cbn; subst; now rewrite Z.eqb_refl.
  - intros H. destruct (k' <? a); cbn.
    + destruct (k =? k'); [reflexivity|]. replace (k =? a) with false by lia. exact H.
    + destruct (k' =? a); cbn; replace (k =? a) with false by lia; auto.
Qed.
Lemma memplace_has_self {A} k (v : A) acc : mhas k (memplace k v acc) = true.
Proof.
  unfold mhas. induction acc as [|[a w] acc IH]; cbn.
  - now rewrite Z.eqb_refl.
  - destruct (k <? a); cbn; [now rewrite Z.eqb_refl|]. destruct (Z.eqb_spec k a); cbn.
    + subst. now rewrite Z.eqb_refl.
    + replace (k =? a) with false by lia. exact IH.
Qed.
Lemma fresh_inv {A X} (k : A -> Z) (e : A -> X) l : fresh (map (fun a => (k a, e a)) l) [] -> NoDup (map k l).
Proof.
  intros H.
  assert (G : forall l acc, fresh (map (fun a => (k a, e a)) l) acc ->
              NoDup (map k l) /\ Forall (fun a => mhas (k a) acc = false) l).
  { clear. induction l as [|a l IH]; intros acc H; [split; constructor|]. cbn in H. destruct H as [H1 H2].
    destruct (IH _ H2) as [N F]. split.
    - cbn. constructor; [|exact N]. intros Hin. apply in_map_iff in Hin. destruct Hin as (b & E & Hb).
      rewrite Forall_forall in F. specialize (F b Hb). rewrite E, memplace_has_self in F. discriminate.
    - constructor; [exact H1|]. eapply Forall_impl; [|exact F]. intros b Hb. cbv beta in Hb |- *.
      destruct (mhas (k b) acc) eqn:E; [|reflexivity]. rewrite (memplace_has _ (k a) (e a) _ E) in Hb. discriminate. }
  apply (G _ _ H).
Qed.

(** a file, up to its first FEND *)
Lemma file_inv d t f p : file_at d t f p -> is_head d = true -> p <> [] ->
  exists src, t = lines_text (file_all src) ++ p /\ f = file_tree src /\ file_ok src
    /\ f_mat src = smat d /\ f_mf src = smf d
    /\ (x_fends src = [] -> forall d' r, div_at p d' r -> in_mf (smf d) d' = false).
Proof.
  intros ((r & Hd) & l & Hi & Hf & ->) Hh Hp.
  destruct (file_items_inv _ _ _ _ Hi Hp) as (secs & fe & -> & -> & S & M & F & NF & G & K).
  assert (in_mf (smf d) d = true) by (unfold in_mf; rewrite Hh; cbn; lia).
  destruct (K _ _ Hd H) as [Hn Em].
  exists (mkfs secs fe). unfold f_mat, f_mf. cbn [x_secs x_fends].
  assert (Emf : x_mf (hd sec0 secs) = smf d) by (destruct secs as [|s secs]; [congruence|]; now inversion M).
  split; [reflexivity|]. split.
  { unfold file_tree, f_mat, f_mf. cbn [x_secs]. now rewrite Em, Emf. }
  split; [|auto].
  unfold file_ok, f_mf. cbn [x_secs x_fends]. rewrite Emf. split; [exact Hn|]. split; [exact S|]. split; [exact M|].
  split; [now apply (fresh_inv x_mt sec_tree)|]. split; [exact F|exact NF].
Qed.

Lemma mat_items_inv mat t l p : items file_at smf (in_mat mat) is_fend is_mend t l p -> p <> [] ->
  exists files me, t = lines_text (flat_map file_all files ++ me) ++ p /\ l = map file_entry files
    /\ Forall file_ok files /\ Forall (fun f => f_mat f = mat) files
    /\ Forall mend_line me /\ Forall noLF me
    /\ (me = [] -> forall d r, div_at p d r -> in_mat mat d = false
          /\ (files <> [] -> x_fends (last files file0) = [] -> in_mf (f_mf (last files file0)) d = false))
    /\ (forall d r, div_at t d r -> in_mat mat d = true ->
          files <> [] /\ f_mat (hd file0 files) = smat d /\ f_mf (hd file0 files) = smf d).
Proof.
  induction 1 as [t d r Hd Hs Hc|t d r Hd Hs Hc|t d r x p t' l q Hd Hs HR Hp Hk Hi IH]; intros Hq.
  - destruct (div_at_full _ _ _ Hd Hq) as (l & -> & N & D). exists [], [l]. cbn [flat_map app]. rewrite lines_cons. cbn.
    split; [reflexivity|]. split; [reflexivity|]. split; [constructor|]. split; [constructor|].
    split; [constructor; [apply mend_iff; eauto|constructor]|]. split; [constructor; [exact N|constructor]|].
    split; [discriminate|]. intros d0 r0 D0 E0. destruct (div_at_fun _ _ _ _ _ Hd D0). congruence.
  - exists [], []. cbn. split; [reflexivity|]. split; [reflexivity|]. do 4 (split; [constructor|]). split.
    + intros _ d' r' D'. destruct (div_at_fun _ _ _ _ _ Hd D') as [<- _]. split; [exact Hs|]. congruence.
    + intros d0 r0 D0 E0. destruct (div_at_fun _ _ _ _ _ Hd D0). congruence.
  - assert (Ht' : t' <> []).
    { eapply length_ne; [|exact Hq]. eapply (items_le _ _ _ _ _ _ file_inner (in_mat_head mat)); eauto. }
    destruct (IH Hq) as (files & me & -> & -> & S & M & F & NF & G & _).
    destruct (skips_inv _ _ _ Hk Ht') as (es & -> & Fe & Ne).
    destruct (file_inv _ _ _ _ HR (in_mat_head _ _ Hs) Hp) as (src & Et & -> & Ok & E1 & E2 & Fo).
    set (f := mkfs (x_secs src) (x_fends src ++ es)).
    assert (Ef : file_entry f = (smf d, file_tree src)) by (rewrite <- E2; reflexivity).
    exists (f :: files), me.
    split.
    { assert (Ea : lines_text (file_all f) = lines_text (file_all src) ++ lines_text es).
      { unfold file_all. cbn [x_secs x_fends f]. now rewrite app_assoc, (lines_app _ es). }
      rewrite Et. cbn [flat_map]. rewrite <- !app_assoc, !lines_app, Ea, <- !app_assoc. reflexivity. }
    split; [cbn [map]; now rewrite Ef|]. split.
    { constructor; [|exact S]. destruct Ok as (O1 & O2 & O3 & O4 & O5 & O6). split; [exact O1|]. split; [exact O2|].
      split; [exact O3|]. split; [exact O4|]. cbn [x_fends f]. split; apply Forall_app; split; auto.
      eapply Forall_impl; [|exact Fe]. intros a. apply fend_iff. }
    assert (Em : f_mat f = smat d) by exact E1.
    split; [constructor; [|exact M]; cbn; kinds|]. split; [exact F|]. split; [exact NF|]. split.
    { intros -> d' r' D'. destruct (G eq_refl _ _ D') as [G1 G2]. split; [exact G1|]. intros _.
      destruct files as [|f2 files]; [|apply G2; discriminate]. cbn [last]. intros Efe.
      cbn [x_fends f] in Efe. apply app_eq_nil in Efe. destruct Efe as [Ef1 ->].
      change (f_mf f) with (f_mf src). rewrite E2. eapply Fo; [exact Ef1|]. cbn. exact D'. }
    intros d0 r0 D0 E0. destruct (div_at_fun _ _ _ _ _ Hd D0) as [<- _]. split; [discriminate|].
    cbn [hd]. split; [exact E1|exact E2].
Qed.

Lemma mat_inv d t m p : mat_at d t m p -> is_head d = true -> p <> [] ->
  exists src, t = lines_text (mat_all src) ++ p /\ m = mat_tree src /\ mat_ok src
    /\ m_mat src = smat d /\ m_first_mf src = smf d
    /\ (x_mends src = [] -> forall d' r, div_at p d' r -> in_mat (smat d) d' = false
          /\ (x_fends (last (x_files src) file0) = [] -> in_mf (f_mf (last (x_files src) file0)) d' = false)).
Proof.
  intros ((r & Hd) & l & Hi & Hf & ->) Hh Hp.
  destruct (mat_items_inv _ _ _ _ Hi Hp) as (files & me & -> & -> & S & M & F & NF & G & K).
  assert (in_mat (smat d) d = true) by (unfold in_mat; rewrite Hh; cbn; lia).
  destruct (K _ _ Hd H) as (Hn & Em & Emf).
  exists (mkms files me). unfold m_mat, m_first_mf. cbn [x_files x_mends].
  split; [reflexivity|]. split.
  { unfold mat_tree, m_mat. cbn [x_files]. now rewrite Em. }
  split; [|split; [exact Em|split; [exact Emf|]]].
  - unfold mat_ok, m_mat. cbn [x_files x_mends]. rewrite Em. split; [exact Hn|]. split; [exact S|]. split; [exact M|].
    split; [now apply (fresh_inv f_mf file_tree)|]. split; [exact F|exact NF].
  - intros E d' r' D'. destruct (G E _ _ D') as [G1 G2]. split; [exact G1|]. now apply G2.
Qed.

Lemma mats_ne t l q : mats_at t l q -> t <> [].
Proof.
  intros H ->. inversion H as [t1 d r Hd Hh Ht|t1 d r m p t' l' q' Hd Hh]; subst; apply div_at_nil in Hd.
  - kinds.
  - kinds.
Qed.

Lemma mats_inv t l q : mats_at t l q ->
  exists mats u, t = lines_text (flat_map mat_all mats) ++ u /\ l = map mat_entry mats /\ Forall mat_ok mats
    /\ separated_all mats /\ tend_line (fst (next_line u)) /\ snd (next_line u) = q
    /\ (mats = [] -> t = u)
    /\ (mats <> [] -> forall d r, div_at t d r -> smat d = m_mat (hd (mkms [] []) mats) /\ smf d = m_first_mf (hd (mkms [] []) mats)).
Proof.
  induction 1 as [t d r Hd Hh Ht|t d r m p t' l q Hd Hh HR Hk Hi IH].
  - exists [], t. cbn. destruct Hd as (tl & N & D). rewrite N. cbn.
    split; [reflexivity|]. split; [reflexivity|]. split; [constructor|]. split; [exact I|].
    split; [apply tend_iff; eauto|]. split; [reflexivity|]. split; [reflexivity|]. congruence.
  - pose proof (mats_ne _ _ _ Hi) as Ht'.
    destruct IH as (mats & u & Et' & -> & S & Sep & Te & Eq & E0 & E1).
    destruct (skips_inv _ _ _ Hk Ht') as (es & Ep & Fe & Ne).
    assert (Hp : p <> []) by (rewrite Ep; now apply lines_nonnil).
    destruct (mat_inv _ _ _ _ HR Hh Hp) as (src & Et & -> & Ok & M1 & M2 & Fo).
    set (ms := mkms (x_files src) (x_mends src ++ es)).
    assert (Em : mat_entry ms = (smat d, mat_tree src)) by (rewrite <- M1; reflexivity).
    exists (ms :: mats), u. split.
    { assert (Ea : lines_text (mat_all ms) = lines_text (mat_all src) ++ lines_text es).
      { unfold mat_all. cbn [x_files x_mends ms]. now rewrite app_assoc, (lines_app _ es). }
      rewrite Et, Ep, Et'. cbn [flat_map]. rewrite !lines_app, Ea, <- !app_assoc. reflexivity. }
    split; [cbn [map]; now rewrite Em|]. split.
    { constructor; [|exact S]. destruct Ok as (O1 & O2 & O3 & O4 & O5 & O6). split; [exact O1|]. split; [exact O2|].
      split; [exact O3|]. split; [exact O4|]. cbn [x_mends ms]. split; apply Forall_app; split; auto.
      eapply Forall_impl; [|exact Fe]. intros a. apply mend_iff. }
    split; [|split; [exact Te|split; [exact Eq|split]]].
    + destruct mats as [|m2 mats]; [exact I|]. split; [|exact Sep]. intros Eme. cbn [x_mends ms] in Eme.
      apply app_eq_nil in Eme. destruct Eme as [Eme ->]. cbn in Ep.
      assert (exists d2 r2, div_at t' d2 r2 /\ is_head d2 = true) as (d2 & r2 & D2 & H2).
      { inversion Hi; subst. eauto. }
      destruct (E1 ltac:(discriminate) _ _ D2) as [Ma Mf]. cbn [hd] in Ma, Mf.
      rewrite <- Ep in D2. destruct (Fo Eme _ _ D2) as [F1 F2]. split.
      * change (m_mat ms) with (m_mat src). rewrite M1, <- Ma. unfold in_mat in F1. rewrite H2 in F1. cbn in F1. lia.
      * intros Ef. cbn [x_files ms] in *. specialize (F2 Ef). rewrite <- Mf. unfold in_mf in F2. rewrite H2 in F2. cbn in F2. lia.
    + discriminate.
    + intros _ d0 r0 D0. destruct (div_at_fun _ _ _ _ _ Hd D0) as [<- _]. split; [symmetry; exact M1|symmetry; exact M2].
Qed.

(** the text [t] of a tape: its lines; the TEND line may lack its newline, and
    anything may follow *)
Definition tape_text (src : tape_src) (t : text) : Prop :=
  exists u, t = lines_text (x_tpid src :: flat_map mat_all (x_mats src)) ++ u /\ fst (next_line u) = x_tend src.
Definition tape_tree (src : tape_src) (i : tpid) : ttape :=
  mkttape (Some i) (fold_mmput (map mat_entry (x_mats src)) []).

Theorem index_tape_grammar t T :
  (exists s, index_tape t = Ok T s) <->
  exists src i, tape_ok src /\ tape_text src t /\ tpid_line (x_tpid src) i /\ T = tape_tree src i.
Proof.
  rewrite index_tape_iff. split.
  - intros (p & l & b & i & ms & N & Ti & H & ->).
    pose proof (mats_ne _ _ _ H) as Hb. destruct (next_line_full _ _ _ N Hb) as [-> Nl].
    destruct (mats_inv _ _ _ H) as (mats & u & -> & -> & S & Sep & Te & Eq & _).
    exists (mkts l mats (fst (next_line u))), i. unfold tape_ok, tape_text. cbn [x_tpid x_mats x_tend].
    split; [|split; [|auto]].
    + split; [eauto|]. split; [exact Nl|]. split; [exact S|]. split; [exact Sep|]. split; [exact Te|]. apply next_line_noLF.
    + exists u. rewrite lines_cons. auto.
  - intros (src & i & ((i' & Ti') & Nl & S & Sep & Te & Nt) & (u & -> & Eu) & Ti & ->).
    exists (snd (next_line u)), (x_tpid src), (lines_text (flat_map mat_all (x_mats src)) ++ u), i, (map mat_entry (x_mats src)).
    split; [rewrite lines_cons; now apply next_line_app|]. split; [exact Ti|]. split; [|reflexivity].
    eapply mats_fwd_tree; eauto. rewrite <- Eu. now destruct (next_line u).
Qed.
