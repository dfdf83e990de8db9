(** TypedProofs.v -- lemmas about Typed.v. *)
From Coq Require Import ZifyBool ZifyNat.
From Verif Require Import Base Disco DiscoProofs Records RecordProofs RecordRT RecordSound Layout
  RealRound RealProofs Spec Normal LineFacts PropSec451 Sections SecSpec Codec SectionProofs
  Tree TreeSpec TreeProofs TreeGrammar TreeMaps PropTree PropTree2 Typed TypedSpec.
Open Scope Z_scope.

(** ** maps *)
Lemma fill_from_ok {A} (key : A -> Z) l : forall acc m, fill_from key l acc = Val m ->
  m = fold_place (map (fun a => (key a, a)) l) acc /\ fresh (map (fun a => (key a, a)) l) acc.
Proof.
  induction l as [|a l IH]; intros acc m E; cbn [fill_from map] in *.
  - injection E as <-. split; [reflexivity|exact Logic.I].
  - destruct (mhas (key a) acc) eqn:H; [discriminate|]. destruct (IH _ _ E) as [-> F]. split; [reflexivity|]. split; assumption.
Qed.
Lemma fill_asc {A} (key : A -> Z) (l : list (Z * A)) : ascending Z.lt (map fst l) ->
  Forall (fun p => fst p = key (snd p)) l -> fill key (map snd l) = Val l.
Proof.
  intros S F. unfold fill.
  assert (G : forall l acc, strict (map fst (acc ++ l)) -> Forall (fun p => fst p = key (snd p)) l ->
     fill_from key (map snd l) acc = Val (acc ++ l)).
  { clear. induction l as [|[k a] l IH]; intros acc S F; cbn [map fill_from snd]; [now rewrite app_nil_r|].
    inversion F as [|? ? F1 F2]; subst. cbn [fst snd] in F1. subst k.
    assert (Hn : ~ In (key a) (map fst acc)).
    { intros K. apply strict_NoDup in S. rewrite map_app in S. cbn [map fst] in S. apply NoDup_remove_2 in S. apply S. apply in_or_app. now left. }
    assert (mhas (key a) acc = false) by (destruct (mhas (key a) acc) eqn:E; [apply mhas_In in E; tauto|reflexivity]).
    rewrite H.
    assert (Lt : Forall (fun x => x < key a) (map fst acc)).
    { clear -S. rewrite map_app in S. cbn [map fst] in S. induction (map fst acc) as [|x l' IH]; [constructor|].
      cbn [app] in S. apply strict_cons in S. destruct S as [S1 S2]. constructor; [|auto].
      rewrite Forall_app in S1. destruct S1 as [_ S1]. now inversion S1. }
    rewrite memplace_last by exact Lt. rewrite IH; [now rewrite <- app_assoc|now rewrite <- app_assoc|exact F2]. }
  exact (G l [] S F).
Qed.
Lemma fill_inv {A} (key : A -> Z) l m : fill key l = Val m ->
  ascending Z.lt (map fst m) /\ Forall (fun p => fst p = key (snd p)) m
  /\ (forall a, In a l <-> In (key a, a) m) /\ NoDup (map key l).
Proof.
  intros E. apply fill_from_ok in E. destruct E as [-> F].
  assert (P := fold_place_perm _ _ F). rewrite app_nil_l in P.
  assert (S : strict (map fst (fold_place (map (fun a => (key a, a)) l) []))) by (apply fold_place_strict; exact Logic.I).
  split; [exact S|]. split; [|split].
  - rewrite Forall_forall. intros p Hp. apply (Permutation.Permutation_in _ P) in Hp. apply in_map_iff in Hp. destruct Hp as (a & <- & _). reflexivity.
  - intros a. split; intros Ha.
    + apply (Permutation.Permutation_in _ (Permutation.Permutation_sym P)). apply in_map_iff. eauto.
    + apply (Permutation.Permutation_in _ P) in Ha. apply in_map_iff in Ha. destruct Ha as (b & Eb & Hb). injection Eb as _ <-. exact Hb.
  - apply strict_NoDup in S. eapply Permutation.Permutation_NoDup; [|exact S].
    rewrite (Permutation.Permutation_map fst P). rewrite map_map. cbn [fst]. apply Permutation.Permutation_refl.
Qed.
Lemma fill_dup {A} (key : A -> Z) l : ~ NoDup (map key l) -> fill key l = Throw EStd.
Proof.
  assert (G : forall l acc, match fill_from key l acc with Undef => False | Throw e => e = EStd | Val _ => True end).
  { clear. induction l as [|a l IH]; intros acc; cbn [fill_from]; [exact Logic.I|]. destruct (mhas (key a) acc); [reflexivity|apply IH]. }
  intros N. specialize (G l []). fold (fill key l) in G. destruct (fill key l) as [m|e|] eqn:E.
  - apply fill_inv in E. destruct E as (_ & _ & _ & E). contradiction.
  - now subst.
  - destruct G.
Qed.
Lemma fill_some {A} (key : A -> Z) l : NoDup (map key l) -> exists m, fill key l = Val m.
Proof.
  unfold fill. assert (G : forall l acc, NoDup (map fst acc ++ map key l) -> exists m, fill_from key l acc = Val m).
  { clear. induction l as [|a l IH]; intros acc N; cbn [fill_from map] in *; [eauto|].
    assert (H : mhas (key a) acc = false).
    { destruct (mhas (key a) acc) eqn:E; [|reflexivity]. apply mhas_In in E. apply NoDup_remove_2 in N. exfalso. apply N. apply in_or_app. now left. }
    rewrite H. apply IH. eapply Permutation.Permutation_NoDup; [|exact N].
    assert (P : Permutation.Permutation (map fst (memplace (key a) a acc)) (key a :: map fst acc)).
    { clear -H. induction acc as [|[k v] acc IH]; cbn [memplace map fst]; [apply Permutation.Permutation_refl|].
      unfold mhas in *. cbn [mfind] in H. destruct (Z.eqb_spec (key a) k); [discriminate|]. destruct (key a <? k); cbn [map fst]; [apply Permutation.Permutation_refl|].
      etransitivity; [apply Permutation.perm_skip, IH, H|]. apply Permutation.perm_swap. }
    symmetry. etransitivity; [apply Permutation.Permutation_app_tail, P|]. cbn [app]. apply Permutation.Permutation_middle. }
  intros N. apply G. exact N.
Qed.

(** ** a division and what follows *)
Definition headed {A} (body : sdiv -> M A) (t : text) (h : sdiv) (x : A) (n : Z) : Prop :=
  exists l t1, t = l ++ LF :: t1 /\ noLF l /\ division_line l h /\ reads (body h) t1 x n.
Inductive runs {A} (stop : sdiv -> bool) (body : sdiv -> M A) : list A -> text -> Z -> Prop :=
| runs_end l d : noLF l -> division_line l d -> stop d = true -> runs stop body [] (l ++ [LF]) 1
| runs_cons t h x n xs u m : headed body t h x n -> stop h = false -> runs stop body xs u m ->
    runs stop body (x :: xs) (t ++ u) (n + 1 + m).
Lemma rd_line l d r ln : noLF l -> division_line l d -> rd_sdiv (mkst (l ++ LF :: r) ln) = Ok d (mkst r (ln + 1)).
Proof. intros N D. eapply sdiv_fwd; [|exact D]. now apply next_line_app. Qed.
Lemma runs_len {A} stop (body : sdiv -> M A) xs t n : runs stop body xs t n -> (length xs < length t)%nat.
Proof.
  induction 1 as [|t h x n xs u m (l & t1 & -> & _) _ _ IH]; [rewrite app_length; cbn; lia|].
  rewrite !app_length. cbn [length]. lia.
Qed.
Lemma runs_head {A} stop (body : sdiv -> M A) xs t n : runs stop body xs t n ->
  exists l d t1, t = l ++ LF :: t1 /\ noLF l /\ division_line l d /\ stop d = (match xs with [] => true | _ => false end)
    /\ (length xs <= S (length t1))%nat
    /\ forall fuel, (length xs < fuel)%nat -> reads (div_loop stop body fuel d) t1 xs (n - 1).
Proof.
  induction 1 as [l d Nl D S|t h x n xs u m (l & t1 & -> & Nl & D & R) S H IH].
  - exists l, d, []. repeat (split; [first [reflexivity|assumption|cbn; lia]|]). intros fuel Hf. destruct fuel as [|f]; [cbn in Hf; lia|].
    cbn [div_loop]. rewrite S. apply reads_ret.
  - exists l, h, (t1 ++ u). rewrite <- app_assoc. cbn [app]. split; [reflexivity|]. split; [exact Nl|]. split; [exact D|]. split; [exact S|].
    split. { apply runs_len in H. rewrite app_length. cbn [length]. lia. }
    intros fuel Hf. destruct fuel as [|f]; [cbn in Hf; lia|]. cbn [div_loop]. rewrite S. cbn [length] in Hf.
    destruct IH as (l' & d' & t' & -> & Nl' & D' & _ & _ & IH).
    intros rest ln. unfold bind at 1. rewrite <- app_assoc. rewrite R. unfold bind at 1. rewrite <- app_assoc. cbn [app].
    rewrite (rd_line _ _ _ _ Nl' D'). unfold bind. rewrite IH by lia. unfold ret. do 2 f_equal. lia.
Qed.
(** reading the division first *)
Lemma runs_reads {A B} stop (body : sdiv -> M A) xs t n fuel (f : list A -> M B) b : runs stop body xs t n ->
  (length xs < fuel)%nat -> (forall s, f xs s = Ok b s) -> reads (d <- rd_sdiv ;; r <- div_loop stop body fuel d ;; f r) t b n.
Proof.
  intros H Hf F. destruct (runs_head _ _ _ _ _ H) as (l & d & t1 & -> & Nl & D & _ & _ & R).
  intros rest ln. unfold bind at 1. rewrite <- app_assoc. cbn [app]. rewrite (rd_line _ _ _ _ Nl D). unfold bind. rewrite R by exact Hf.
  rewrite F. do 2 f_equal. lia.
Qed.

(** ** sections *)
Section Classes.
  Variable code : Type.
  Variable body : code -> Type.
  Variable kind : forall c, skind (body c).
  Variable class_of : Z -> Z -> option code.
  Variable rep inv : forall c, body c -> Prop.
  Hypothesis T : table_ok code body kind class_of rep inv.
  Notation ysec := (ysec code body). Notation yfile := (yfile code body). Notation ymat := (ymat code body).
  Notation good_ysec := (good_ysec code body kind rep inv).
  Notation good_yfile := (good_yfile code body kind rep inv).
  Notation good_ymat := (good_ymat code body kind rep inv).

  Lemma good_mt x : good_ysec x -> 0 < y_mt x < 1000.
  Proof.
    intros (_ & [N _] & _). unfold y_mt in *. destruct (k_fix (kind (projT1 x))) eqn:E; [|exact N].
    rewrite N. exact (tk_fix _ _ _ _ _ _ T _ _ E).
  Qed.
  Lemma good_class x : good_ysec x -> class_of (k_mf (kind (projT1 x))) (y_mt x) = Some (projT1 x).
  Proof.
    intros (_ & [N _] & _). unfold y_mt in *.
    destruct (k_fix (kind (projT1 x))) eqn:E; [rewrite N; now apply (tk_class _ _ _ _ _ _ T)|]. now apply (tk_any _ _ _ _ _ _ T).
  Qed.
  (** the printed section: a HEAD line, more lines, SEND *)
  Definition sec_text_is (x : ysec) (mat mf : Z) (l : text) (ls : list text) (d : sdiv) : Prop :=
    let e := SecSpec.send_line mat mf in
    pr_any kind x mat mf = Val (lines_text (l :: ls ++ [e]))
    /\ Forall noLF (l :: ls ++ [e]) /\ division_line l d /\ smat d = mat /\ smf d = mf /\ smt d = y_mt x
    /\ Forall (carries mat mf (y_mt x)) (l :: ls)
    /\ reads (rd_any kind class_of mf d) (lines_text (ls ++ [e])) x (nc_section (kind (projT1 x)) (projT2 x)).
  Lemma printed x mat mf : 0 < mat < 10000 -> k_mf (kind (projT1 x)) = mf -> good_ysec x ->
    exists l ls d, sec_text_is x mat mf l ls d.
  Proof.
    intros Hm Hf Gx. assert (Hmf := tk_mf _ _ _ _ _ _ T (projT1 x)). assert (Cx := good_class x Gx). assert (Ht := good_mt x Gx).
    destruct x as [c x]. cbn [projT1 projT2] in *. destruct Gx as (G & N & R & I). cbn [projT1 projT2] in *. rewrite Hf in *.
    destruct (so_round_trip _ _ _ (tk_core _ _ _ _ _ _ T c) x mat Hm G N R I) as (b & A & Bd & C). rewrite Hf in *.
    destruct Bd as (ls & E1 & E2 & E3). set (e := SecSpec.send_line mat mf) in *.
    assert (Ne : noLF e).
    { unfold e, SecSpec.send_line. repeat (apply noLF_app; split); auto using noLF_blanks, show_noLF. }
    assert (Et : b ++ e ++ [LF] = lines_text (ls ++ [e])) by (rewrite E1, lines_app, lines_one; reflexivity).
    assert (Nl : Forall noLF ls) by (eapply Forall_impl; [|exact E3]; intros l (_ & Hl & _); exact Hl).
    destruct (send_text mat mf Hm (proj1 Hmf)) as [_ Rs]. fold e in Rs.
    destruct ls as [|l ls].
    - exfalso. cbn in E1. subst b. cbn [app] in C. specialize (C [] 0). rewrite app_nil_r in C. unfold parse_section, bind at 1 in C.
      specialize (Rs [] 0). rewrite app_nil_r in Rs. rewrite Rs in C. unfold Sections.rd_section, sec_head, bind at 1, bind at 1 in C. cbn in C. discriminate C.
    - set (n := nc_section (kind c) x) in *.
      assert (D : exists d, division_line l d).
      { specialize (C [] 0). unfold parse_section, bind at 1 in C. destruct (rd_sdiv _) as [h s1| |] eqn:E; try discriminate C.
        apply sdiv_inv in E. destruct E as (l' & b' & Nx & D & _). rewrite Et, app_nil_r in Nx. cbn [app] in Nx. rewrite lines_cons' in Nx. rewrite next_line_app in Nx by (now inversion Nl).
        injection Nx as <- _. eauto. }
      destruct D as (d & D). exists l, ls, d. unfold sec_text_is. cbn [projT1 projT2]. fold e. split; [unfold pr_any; cbn [projT1 projT2]; rewrite A, Et; reflexivity|].
      split. { change (Forall noLF ((l :: ls) ++ [e])). apply Forall_app. split; [exact Nl|constructor; [exact Ne|constructor]]. }
      split; [exact D|].
      assert (K : smat d = mat /\ smf d = mf /\ smt d = s_mt x).
      { exact (carries_fun _ _ _ _ _ _ _ (proj1 (proj2 D)) (endf_carries _ _ _ _ (Forall_inv E3))). }
      destruct K as (K1 & K2 & K3). split; [exact K1|]. split; [exact K2|]. split; [exact K3|].
      split. { eapply Forall_impl; [|exact E3]. intros a. apply endf_carries. }
      intros rest ln. unfold rd_any. replace (class_of mf (smt d)) with (Some c) by (rewrite K3; symmetry; exact Cx). rewrite K1. unfold bind.
      specialize (C rest (ln - 1)). rewrite Et in C. unfold parse_section, bind at 1 in C. cbn [app] in C. rewrite lines_cons in C.
      rewrite (rd_line _ _ _ _ (Forall_inv Nl) D) in C. replace (ln - 1 + 1) with ln in C by lia.
      match goal with |- context [Sections.rd_section (kind c) d mat ?s] => replace (Sections.rd_section (kind c) d mat s) with (Ok x (mkst rest (ln - 1 + n + 1))) by (symmetry; exact C) end. unfold ret. do 2 f_equal. fold n. lia.
  Qed.

  (** the same as a section of the tree *)
  Definition sec_printed (mat mf : Z) (x : ysec) (s : sec_src) : Prop :=
    x_mat s = mat /\ x_mf s = mf /\ x_mt s = y_mt x /\ (x_sends s = [] /\ x_last s = SecSpec.send_line mat mf) /\ sec_ok s
    /\ pr_any kind x mat mf = Val (lines_text (sec_all s))
    /\ exists d, smat d = mat /\ smf d = mf /\ smt d = y_mt x
         /\ headed (rd_any kind class_of mf) (lines_text (sec_all s)) d x (nc_section (kind (projT1 x)) (projT2 x)).
  Lemma printed_sec x mat mf : 0 < mat < 10000 -> k_mf (kind (projT1 x)) = mf -> good_ysec x ->
    exists s, sec_printed mat mf x s.
  Proof.
    intros Hm Hf Gx. assert (Ht := good_mt x Gx). assert (Hmf := tk_mf _ _ _ _ _ _ T (projT1 x)). rewrite Hf in Hmf.
    destruct (printed x mat mf Hm Hf Gx) as (l & ls & d & (A & B & C & D1 & D2 & D3 & E & R)).
    set (e := SecSpec.send_line mat mf) in *. exists (mkss mat mf (y_mt x) l ls e []). unfold sec_printed. cbn [x_mat x_mf x_mt x_sends].
    assert (Ea : sec_all (mkss mat mf (y_mt x) l ls e []) = l :: ls ++ [e]) by (unfold sec_all, sec_lines; cbn [x_head x_body x_last x_sends]; apply app_nil_r).
    rewrite Ea.
    do 3 (split; [reflexivity|]). split; [split; reflexivity|]. split; [|split; [exact A|]].
    - split; [|split; [|split; [|split; [constructor|rewrite Ea; exact B]]]]; cbn [x_mat x_mf x_mt x_head x_body x_last].
      + unfold head_line. split; [lia|]. split; [lia|]. split; [lia|]. eauto.
      + apply Forall_inv_tail in E. eapply Forall_impl; [|exact E]. intros a Ha. exists mat, mf, (y_mt x). split; [exact Ha|lia].
      + destruct (send_text mat mf Hm (proj1 Hmf)) as [_ Rs]. fold e in Rs. specialize (Rs [] 0). rewrite app_nil_r in Rs.
        apply sdiv_inv in Rs. destruct Rs as (l' & b' & Nx & D & _). rewrite next_line_app in Nx.
        * injection Nx as <- _. exists mat, mf. exact (proj1 (proj2 D)).
        * change (Forall noLF ((l :: ls) ++ [e])) in B. apply Forall_app in B. destruct B as [_ B]. exact (Forall_inv B).
    - exists d. do 3 (split; [assumption|]). exists l, (lines_text (ls ++ [e])). split; [apply lines_cons'|].
      split; [exact (Forall_inv B)|]. split; [exact C|exact R].
  Qed.
  Lemma list_ex {A B} (R : A -> B -> Prop) l : Forall (fun a => exists b, R a b) l -> exists r, Forall2 R l r.
  Proof. induction 1 as [|a l (b & Hb) _ (r & IH)]; [exists []; constructor|]. exists (b :: r). now constructor. Qed.
  Fixpoint total {A} (cnt : A -> Z) (l : list A) : Z := match l with [] => 0 | a :: l' => cnt a + 1 + total cnt l' end.
  Lemma runs_of {A B} stop (bd : sdiv -> M A) (g : B -> text) cnt xs ss l d : noLF l -> division_line l d -> stop d = true ->
    Forall2 (fun x s => exists h, headed bd (g s) h x (cnt x) /\ stop h = false) xs ss ->
    runs stop bd xs (flat_map g ss ++ l ++ [LF]) (total cnt xs + 1).
  Proof.
    intros N D S. induction 1 as [|x s xs ss (h & H1 & H2) _ IH]; cbn [flat_map total]; [now apply (runs_end _ _ l d)|].
    rewrite <- app_assoc. replace (cnt x + 1 + total cnt xs + 1) with (cnt x + 1 + (total cnt xs + 1)) by lia. eapply runs_cons; eauto.
  Qed.
  Lemma runs_headed {A B} stop (bd : sdiv -> M A) xs t n (fin : sdiv -> list A -> M B) (b : B) : runs stop bd xs t n ->
    exists l d t1, t = l ++ LF :: t1 /\ noLF l /\ division_line l d /\ stop d = (match xs with [] => true | _ => false end)
     /\ ((forall s, fin d xs s = Ok b s) ->
         reads (on_err (b0 <- get_pos ;; r <- div_loop stop bd (Datatypes.S (Datatypes.S (length b0))) d ;; fin d r) h_std) t1 b (n - 1)).
  Proof.
    intros H. destruct (runs_head _ _ _ _ _ H) as (l & d & t1 & E & Nl & D & Sd & L & R). exists l, d, t1. do 4 (split; [assumption|]).
    intros F. apply reads_on_err. intros rest ln. unfold get_pos, bind. cbn [buf]. rewrite R by (rewrite app_length; lia).
    apply F.
  Qed.

  (** ** files *)
  Definition nc_yfile (f : yfile) : Z := total (fun p => nc_section (kind (projT1 (snd p))) (projT2 (snd p))) (yf_secs f).
  Definition file_printed (mat : Z) (f : yfile) (s : file_src) : Prop :=
    f_mat s = mat /\ f_mf s = yf_mf f /\ file_ok s /\ canonical_file s
    /\ pr_yfile kind f mat = Val (lines_text (file_all s))
    /\ exists d, smat d = mat /\ smf d = yf_mf f /\ smt d <> 0
         /\ headed (rd_any_file kind class_of) (lines_text (file_all s)) d f (nc_yfile f).
  Lemma total_map {A B} (h : A -> B) cnt l : total cnt (map h l) = total (fun a => cnt (h a)) l.
  Proof. induction l as [|a l IH]; cbn [map total]; [reflexivity|]. now rewrite IH. Qed.
  Lemma Forall2_map_eq {A B C} (R : A -> B -> Prop) (g : B -> C) (h : A -> C) l r : Forall2 R l r ->
    (forall a b, R a b -> g b = h a) -> map g r = map h l.
  Proof. induction 1 as [|a b l r H _ IH]; intros E; [reflexivity|]. cbn [map]. rewrite (E _ _ H), IH by exact E. reflexivity. Qed.
  Lemma Forall2_right {A B} (R : A -> B -> Prop) (P : B -> Prop) l r : Forall2 R l r -> (forall a b, R a b -> P b) -> Forall P r.
  Proof. induction 1; intros E; constructor; eauto. Qed.
  Lemma Forall2_hd {A B} (R : A -> B -> Prop) l r b0 : Forall2 R l r -> l <> [] -> exists a, R a (hd b0 r).
  Proof. intros H N. destruct H; [congruence|]. eexists. exact H. Qed.
  Lemma canon_facts mat : 0 < mat < 10000 ->
    noLF (canonical_end mat) /\ division_line (canonical_end mat) (mksdiv zero_cont mat 0 0) /\ pr_FEND mat = Val (canonical_end mat ++ [LF])
    /\ fend_line (canonical_end mat).
  Proof.
    intros H. assert (C : in_cols 4 mat) by (unfold in_cols; cbn; lia). assert (D := canon_div mat C ltac:(lia)).
    split; [now apply canon_noLF|]. split; [exact D|]. split.
    - unfold pr_FEND, FEND. replace (mat <? 1) with false by lia. cbn [obind]. now rewrite pr_end.
    - apply fend_iff. eexists. split; [exact D|]. unfold is_fend, is_fend_permissive, is_send_permissive. cbn. lia.
  Qed.
  Lemma printed_file2 f mat : 0 < mat < 10000 -> good_yfile f ->
    exists s, Forall2 (fun p e => sec_printed mat (yf_mf f) (snd p) e) (yf_secs f) (x_secs s) /\ file_printed mat f s.
  Proof.
    intros Hm (Ne & As & Gs). destruct (canon_facts mat Hm) as (Ce1 & Ce2 & Ce3 & Ce4).
    destruct (list_ex (fun p s => sec_printed mat (yf_mf f) (snd p) s) (yf_secs f)) as (ss & F2).
    { eapply Forall_impl; [|exact Gs]. intros p (_ & K & G). now apply printed_sec. }
    set (src := mkfs ss [canonical_end mat]). exists src. split; [exact F2|].
    assert (Nss : ss <> []) by (intros ->; inversion F2; congruence).
    destruct (Forall2_hd _ _ _ sec0 F2 Ne) as (p0 & H0).
    assert (Hmt : map x_mt ss = map fst (yf_secs f)).
    { rewrite (Forall2_map_eq _ x_mt (fun p => y_mt (snd p)) _ _ F2) by (intros a b H; apply H).
      apply map_ext_in. intros a Ha. rewrite Forall_forall in Gs. destruct (Gs a Ha) as (E & _). now symmetry. }
    assert (Okf : file_ok src).
    { split; [exact Nss|]. split; [eapply Forall2_right; [exact F2|]; intros a b H; apply H|].
      split. { eapply Forall2_right; [exact F2|]. intros a b H. unfold f_mf, src. cbn [x_secs]. transitivity (yf_mf f); [apply H|]. symmetry; apply H0. }
      split; [change (NoDup (map x_mt ss)); rewrite Hmt; now apply strict_NoDup|]. split; (constructor; [assumption|constructor]). }
    assert (Emf : f_mf src = yf_mf f) by apply H0. assert (Emat : f_mat src = mat) by apply H0.
    assert (K30 : yf_mf f <> 30).
    { destruct (yf_secs f) as [|p l]; [congruence|]. destruct (Forall_inv Gs) as (_ & K & _). rewrite <- K. apply (tk_mf _ _ _ _ _ _ T). }
    assert (Etxt : lines_text (file_all src) = flat_map (fun s => lines_text (sec_all s)) ss ++ canonical_end mat ++ [LF]).
    { unfold file_all. cbn [src x_secs x_fends]. rewrite lines_app, lines_flat, lines_one. reflexivity. }
    split; [exact Emat|]. split; [exact Emf|]. split; [exact Okf|]. split.
    { split; [eapply Forall2_right; [exact F2|]; intros a b H; apply H|]. rewrite Emat. split; [reflexivity|]. split; [|exact Hm]. change (ascending Z.lt (map x_mt ss)). rewrite Hmt. exact As. }
    split.
    { unfold pr_yfile. replace (yf_mf f =? 30) with false by lia.
      assert (Eo : oconcat (fun p : Z * ysec => pr_any kind (snd p) mat (yf_mf f)) (yf_secs f) = Val (flat_map (fun s => lines_text (sec_all s)) ss)).
      { clear -F2. unfold oconcat. induction F2 as [|a b l r H _ IH]; [reflexivity|]. cbn [fold_right flat_map]. rewrite IH.
        destruct H as (_ & _ & _ & _ & _ & H & _). rewrite H. reflexivity. }
      rewrite Eo, Ce3, Etxt. reflexivity. }
    assert (Rn : runs is_fend (rd_any kind class_of (yf_mf f)) (map snd (yf_secs f)) (lines_text (file_all src))
                  (nc_yfile f + 1)).
    { rewrite Etxt. unfold nc_yfile. rewrite <- (total_map snd (fun x => nc_section (kind (projT1 x)) (projT2 x))).
      eapply runs_of; [exact Ce1|exact Ce2| |].
      - unfold is_fend, is_fend_permissive, is_send_permissive. cbn. lia.
      - assert (Nz : Forall (fun p => y_mt (snd p) <> 0) (yf_secs f)).
        { eapply Forall_impl; [|exact Gs]. intros p (_ & _ & G). apply good_mt in G. lia. }
        clear -F2 Nz. induction F2 as [|a b l r H _ IH]; [constructor|]. inversion Nz; subst. constructor; [|auto].
        destruct H as (_ & _ & _ & _ & _ & _ & d & D1 & D2 & D3 & Hh). exists d. split; [exact Hh|].
        unfold is_fend, is_fend_permissive, is_send_permissive. rewrite D3. lia. }
    destruct (runs_headed _ _ _ _ _ (fun d l => m <- lift (fill y_mt l) ;; ret (mkyfile (yf_mf f) m)) f Rn) as (l & d & t1 & E & Nl & D & Sd & Rd).
    assert (Hd : exists p, In p (yf_secs f) /\ smat d = mat /\ smf d = yf_mf f /\ smt d = y_mt (snd p)).
    { destruct (yf_secs f) as [|p l0]; [congruence|]. exists p. split; [now left|]. clear Rn Rd Hmt Okf Emf Emat H0 Gs. clearbody src. inversion F2 as [|? s ? ss' H Q1 Q2]. subst.
      destruct H as (_ & _ & _ & _ & _ & _ & d' & D1 & D2 & D3 & (l' & t' & Et & Nl' & Dl' & _)).
      rewrite Etxt in E. cbn [flat_map] in E. rewrite Et, <- !app_assoc in E. cbn [app] in E.
      assert (N1 := next_line_app l' (t' ++ flat_map (fun s => lines_text (sec_all s)) ss' ++ canonical_end mat ++ [LF]) Nl'). rewrite E, next_line_app in N1 by exact Nl.
      injection N1 as <- _. rewrite (division_fun _ _ _ D Dl'). auto. }
    destruct Hd as (p & Hp & D1 & D2 & D3). rewrite Forall_forall in Gs. destruct (Gs p Hp) as (Ep & Ek & Gp).
    exists d. split; [exact D1|]. split; [exact D2|]. split; [apply good_mt in Gp; lia|].
    exists l, t1. split; [exact E|]. split; [exact Nl|]. split; [exact D|].
    unfold rd_any_file. rewrite D2. rewrite <- Ek at 1. rewrite (proj1 (proj2 (tk_mf _ _ _ _ _ _ T _))).
    unfold rd_yfile. replace (yf_mf f =? 30) with false by lia.
    replace ((yf_mf f =? 8) && negb ((smt d =? 454) || (smt d =? 457) || (smt d =? 459))) with false.
    2:{ symmetry. destruct (Z.eqb_spec (yf_mf f) 8) as [E8|]; [|reflexivity]. rewrite E8 in Ek. destruct Gp as (_ & [Gn _] & _).
        unfold y_mt in *. destruct (tk_8 _ _ _ _ _ _ T _ Ek) as [Q|[Q|Q]]; rewrite Q in Gn; lia. }
    unfold rd_yfile_base. replace (nc_yfile f) with (nc_yfile f + 1 - 1) by lia. apply Rd.
    intros s. rewrite fill_asc; [destruct f; reflexivity|exact As|]. rewrite Forall_forall. intros q Hq. apply (Gs q Hq).
  Qed.

  Lemma printed_file f mat : 0 < mat < 10000 -> good_yfile f -> exists s, file_printed mat f s.
  Proof. intros H G. destruct (printed_file2 f mat H G) as (s & _ & P). eauto. Qed.

  (** ** materials *)
  Definition nc_ymat (m : ymat) : Z := total (fun p => nc_yfile (snd p)) (ym_files m).
  Definition mat_printed (m : ymat) (s : mat_src) : Prop :=
    m_mat s = ym_mat m /\ mat_ok s /\ canonical_mat s
    /\ pr_ymat kind m = Val (lines_text (mat_all s))
    /\ exists d, smat d = ym_mat m /\ headed (rd_ymat kind class_of) (lines_text (mat_all s)) d m (nc_ymat m).
  Lemma printed_mat3 m : good_ymat m -> exists s, Forall2 (fun p f => file_printed (ym_mat m) (snd p) f) (ym_files m) (x_files s)
    /\ Forall2 (fun p f => Forall2 (fun q e => sec_printed (ym_mat m) (yf_mf (snd p)) (snd q) e) (yf_secs (snd p)) (x_secs f)) (ym_files m) (x_files s) /\ mat_printed m s.
  Proof.
    intros (Hm & Ne & As & Gs). assert (Ci : in_cols 4 0) by (unfold in_cols; cbn; lia).
    assert (Ce1 := canon_noLF 0 Ci). assert (Ce2 := canon_div 0 Ci ltac:(lia)).
    destruct (list_ex (fun p s => Forall2 (fun q e => sec_printed (ym_mat m) (yf_mf (snd p)) (snd q) e) (yf_secs (snd p)) (x_secs s) /\ file_printed (ym_mat m) (snd p) s) (ym_files m)) as (ss & F12).
    { eapply Forall_impl; [|exact Gs]. intros p (_ & G). now apply printed_file2. }
    assert (F2 : Forall2 (fun p s => file_printed (ym_mat m) (snd p) s) (ym_files m) ss) by (clear - F12; induction F12; constructor; tauto).
    set (src := mkms ss [canonical_end 0]). exists src. split; [exact F2|]. split; [clear - F12; cbn [src x_files]; induction F12; constructor; tauto|]. clear F12.
    assert (Nss : ss <> []) by (intros ->; inversion F2; congruence).
    destruct (Forall2_hd _ _ _ file0 F2 Ne) as (p0 & H0).
    assert (Emf : map f_mf ss = map fst (ym_files m)).
    { rewrite (Forall2_map_eq _ f_mf (fun p => yf_mf (snd p)) _ _ F2) by (intros a b H; apply H).
      apply map_ext_in. intros a Ha. rewrite Forall_forall in Gs. destruct (Gs a Ha) as (E & _). now symmetry. }
    assert (Emat : m_mat src = ym_mat m) by apply H0.
    assert (Okf : mat_ok src).
    { split; [exact Nss|]. split; [eapply Forall2_right; [exact F2|]; intros a b H; apply H|].
      split. { rewrite Emat. eapply Forall2_right; [exact F2|]. intros a b H. apply H. }
      split; [change (NoDup (map f_mf ss)); rewrite Emf; now apply strict_NoDup|].
      split; (constructor; [|constructor]); [|exact Ce1]. apply mend_iff. eexists. split; [exact Ce2|reflexivity]. }
    assert (Etxt : lines_text (mat_all src) = flat_map (fun s => lines_text (file_all s)) ss ++ canonical_end 0 ++ [LF]).
    { unfold mat_all. cbn [src x_files x_mends]. rewrite lines_app, lines_flat, lines_one. reflexivity. }
    split; [exact Emat|]. split; [exact Okf|]. split.
    { split; [eapply Forall2_right; [exact F2|]; intros a b H; apply H|]. split; [reflexivity|]. change (ascending Z.lt (map f_mf ss)). rewrite Emf. exact As. }
    split.
    { unfold pr_ymat.
      assert (Eo : oconcat (fun p : Z * yfile => pr_yfile kind (snd p) (ym_mat m)) (ym_files m) = Val (flat_map (fun s => lines_text (file_all s)) ss)).
      { clear -F2. unfold oconcat. induction F2 as [|a b l r H _ IH]; [reflexivity|]. cbn [fold_right flat_map]. rewrite IH.
        destruct H as (_ & _ & _ & _ & H & _). rewrite H. reflexivity. }
      rewrite Eo, Etxt. change (pr_sdiv MEND) with (pr_sdiv (mksdiv zero_cont 0 0 0)). rewrite pr_end by exact Ci. reflexivity. }
    assert (Rn : runs is_mend (rd_any_file kind class_of) (map snd (ym_files m)) (lines_text (mat_all src)) (nc_ymat m + 1)).
    { rewrite Etxt. unfold nc_ymat. rewrite <- (total_map snd nc_yfile).
      eapply runs_of; [exact Ce1|exact Ce2|reflexivity|].
      clear -F2. induction F2 as [|a b l r H _ IH]; [constructor|]. constructor; [|auto].
      destruct H as (_ & _ & _ & _ & _ & d & D1 & D2 & D3 & Hh). exists d. split; [exact Hh|].
      unfold is_mend, is_fend_permissive, is_send_permissive. lia. }
    destruct (runs_headed _ _ _ _ _ (fun d l => r <- lift (fill yf_mf l) ;; ret (mkymat (smat d) r)) m Rn) as (l & d & t1 & E & Nl & D & Sd & Rd).
    assert (Hd : smat d = ym_mat m).
    { destruct (ym_files m) as [|p l0]; [congruence|]. clear Rn Rd Okf Emf Emat H0 Gs. clearbody src. inversion F2 as [|? s ? ss' H Q1 Q2]. subst.
      destruct H as (_ & _ & _ & _ & _ & d' & D1 & D2 & D3 & (l' & t' & Et & Nl' & Dl' & _)).
      rewrite Etxt in E. cbn [flat_map] in E. rewrite Et, <- !app_assoc in E. cbn [app] in E.
      assert (N1 := next_line_app l' (t' ++ flat_map (fun s => lines_text (file_all s)) ss' ++ canonical_end 0 ++ [LF]) Nl'). rewrite E, next_line_app in N1 by exact Nl.
      injection N1 as <- _. now rewrite (division_fun _ _ _ D Dl'). }
    exists d. split; [exact Hd|]. exists l, t1. split; [exact E|]. split; [exact Nl|]. split; [exact D|].
    unfold rd_ymat. replace (nc_ymat m) with (nc_ymat m + 1 - 1) by lia. apply Rd.
    intros s. rewrite fill_asc; [rewrite Hd; destruct m; reflexivity|exact As|]. eapply Forall_impl; [|exact Gs]. intros q Hq. apply Hq.
  Qed.
  Lemma printed_mat2 m : good_ymat m -> exists s, Forall2 (fun p f => file_printed (ym_mat m) (snd p) f) (ym_files m) (x_files s) /\ mat_printed m s.
  Proof. intros G. destruct (printed_mat3 m G) as (s & A & _ & B). eauto. Qed.
  Lemma printed_mat m : good_ymat m -> exists s, mat_printed m s.
  Proof. intros G. destruct (printed_mat2 m G) as (s & _ & H). eauto. Qed.
End Classes.
