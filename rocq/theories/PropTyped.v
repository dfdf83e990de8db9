(** PropTyped.v -- typed files, materials and tapes: C30 (files, materials), C31,
    C32, C33, C34, C44.  The section classes are given by a table satisfying
    [table_ok]; PropClasses.v gives the table of the library. *)
From Coq Require Import ZifyBool ZifyNat.
From Verif Require Import Base Disco DiscoProofs Records RecordProofs RecordRT RecordSound Layout
  RealRound RealProofs Spec Normal LineFacts PropSec451 Sections SecSpec Codec SectionProofs
  Tree TreeSpec TreeProofs TreeGrammar TreeMaps PropTree PropTree2 Typed TypedSpec TypedProofs.
Open Scope Z_scope.

Section Classes.
  Variable code : Type.
  Variable body : code -> Type.
  Variable kind : forall c, skind (body c).
  Variable class_of : Z -> Z -> option code.
  Variable rep inv : forall c, body c -> Prop.
  Hypothesis T : table_ok code body kind class_of rep inv.
  Notation ysec := (ysec code body). Notation yfile := (yfile code body). Notation ymat := (ymat code body). Notation ytape := (ytape code body).
  Notation good_ysec := (good_ysec code body kind rep inv).
  Notation good_yfile := (good_yfile code body kind rep inv).
  Notation good_ymat := (good_ymat code body kind rep inv).
  Notation good_ytape := (good_ytape code body kind rep inv).
  Notation inv_yfile := (inv_yfile code body kind inv).
  Notation inv_ymat := (inv_ymat code body kind inv).
  Notation nc_yfile := (nc_yfile code body kind). Notation nc_ymat := (nc_ymat code body kind).

  Lemma In_mfind {A} (l : list (Z * A)) k v : NoDup (map fst l) -> In (k, v) l -> mfind k l = Some v.
  Proof.
    induction l as [|[k' v'] l IH]; intros N H; [destruct H|]. cbn [map fst] in N. apply NoDup_cons_iff in N. destruct N as [N1 N2].
    cbn [mfind]. destruct H as [H|H].
    - injection H as -> ->. now rewrite Z.eqb_refl.
    - destruct (Z.eqb_spec k k') as [->|]; [|auto]. exfalso. apply N1. exact (in_map fst _ _ H).
  Qed.
  (** ** C31 *)
  Lemma headed_parse {A} (bd bd' : sdiv -> M A) t d x n : headed bd t d x n ->
    (forall s, bd d s = bd' d s) -> reads (h <- rd_sdiv ;; bd' h) t x (n + 1).
  Proof.
    intros (l & t1 & -> & Nl & D & R) E rest ln. unfold bind. rewrite <- app_assoc. cbn [app]. rewrite (rd_line _ _ _ _ Nl D).
    rewrite <- E, R. do 2 f_equal. lia.
  Qed.
  Lemma known_file f : good_yfile f -> known_mf (yf_mf f) = true /\ yf_mf f <> 30.
  Proof.
    intros (Ne & _ & Gs). destruct (yf_secs f) as [|p l]; [congruence|]. destruct (Forall_inv Gs) as (_ & K & _). rewrite <- K.
    destruct (tk_mf _ _ _ _ _ _ T (projT1 (snd p))) as (_ & H). exact H.
  Qed.
  Theorem C31_round_trip : forall f mat, 0 < mat < 10000 -> good_yfile f ->
    exists t, pr_yfile kind f mat = Val t
      /\ forall rest ln, parse_yfile kind class_of (yf_mf f) (mkst (t ++ rest) ln) = Ok f (mkst rest (ln + (nc_yfile f + 1))).
  Proof.
    intros f mat Hm G. destruct (printed_file _ _ _ _ _ _ T f mat Hm G) as (s & _ & _ & _ & _ & P & d & _ & D2 & _ & H).
    eexists. split; [exact P|]. destruct (known_file f G) as [K _].
    exact (headed_parse _ (rd_yfile kind class_of (yf_mf f)) _ _ _ _ H ltac:(intros s'; unfold rd_any_file; rewrite D2, K; reflexivity)).
  Qed.

  (** sections in any order *)
  Definition pr_secs (xs : list ysec) (mat mf : Z) : pout := oconcat (fun x => pr_any kind x mat mf) xs +++ pr_FEND mat.
  Lemma secs_text xs mf mat : 0 < mat < 10000 -> xs <> [] -> Forall (fun x => k_mf (kind (projT1 x)) = mf /\ good_ysec x) xs ->
    exists t n l d t1, pr_secs xs mat mf = Val t /\ t = l ++ LF :: t1 /\ noLF l /\ division_line l d
      /\ smat d = mat /\ smf d = mf /\ (exists x, In x xs /\ smt d = y_mt x)
      /\ forall rest ln, rd_yfile kind class_of mf d (mkst (t1 ++ rest) ln)
           = on_err (m <- lift (fill y_mt xs) ;; ret (mkyfile mf m)) h_std (mkst rest (ln + n)).
  Proof.
    intros Hm Ne Gs. destruct (canon_facts mat Hm) as (Ce1 & Ce2 & Ce3 & Ce4).
    destruct (list_ex (fun x s => sec_printed _ _ kind class_of mat mf x s) xs) as (ss & F2).
    { eapply Forall_impl; [|exact Gs]. intros x (K & G). now apply (printed_sec _ _ _ _ _ _ T). }
    set (t := flat_map (fun s => lines_text (sec_all s)) ss ++ canonical_end mat ++ [LF]).
    set (n := total (fun x => nc_section (kind (projT1 x)) (projT2 x)) xs + 1).
    assert (Rn : runs is_fend (rd_any kind class_of mf) xs t n).
    { eapply runs_of; [exact Ce1|exact Ce2| |].
      - unfold is_fend, is_fend_permissive, is_send_permissive. cbn. lia.
      - assert (Nz : Forall (fun p => y_mt p <> 0) xs).
        { eapply Forall_impl; [|exact Gs]. intros p (_ & G). apply (good_mt _ _ _ _ _ _ T) in G. lia. }
        clear -F2 Nz. induction F2 as [|a b l r H _ IH]; [constructor|]. inversion Nz; subst. constructor; [|auto].
        destruct H as (_ & _ & _ & _ & _ & _ & d & D1 & D2 & D3 & Hh). exists d. split; [exact Hh|].
        unfold is_fend, is_fend_permissive, is_send_permissive. rewrite D3. lia. }
    destruct (runs_head _ _ _ _ _ Rn) as (l & d & t1 & E & Nl & D & Sd & L & R).
    exists t, (n - 1), l, d, t1. split.
    { unfold pr_secs. rewrite Ce3.
      assert (Eo : oconcat (fun x => pr_any kind x mat mf) xs = Val (flat_map (fun s => lines_text (sec_all s)) ss)).
      { clear -F2. unfold oconcat. induction F2 as [|a b l r H _ IH]; [reflexivity|]. cbn [fold_right flat_map]. rewrite IH.
        destruct H as (_ & _ & _ & _ & _ & H & _). rewrite H. reflexivity. }
      rewrite Eo. reflexivity. }
    split; [exact E|]. split; [exact Nl|]. split; [exact D|].
    assert (Hd : exists x, In x xs /\ smat d = mat /\ smf d = mf /\ smt d = y_mt x).
    { inversion F2 as [Qx Qs|x s xs' ss' H F2' Qx Qs]; [now elim Ne|]. exists x. split; [now left|].
      destruct H as (_ & _ & _ & _ & _ & _ & d' & D1 & D2 & D3 & (l' & t' & Et & Nl' & Dl' & _)).
      unfold t in E. rewrite <- Qs in E. cbn [flat_map] in E. rewrite Et, <- !app_assoc in E. cbn [app] in E.
      assert (N1 := next_line_app l' (t' ++ flat_map (fun s => lines_text (sec_all s)) ss' ++ canonical_end mat ++ [LF]) Nl'). rewrite E, next_line_app in N1 by exact Nl.
      injection N1 as <- _. rewrite (division_fun _ _ _ D Dl'). auto. }
    destruct Hd as (x & Hx & D1 & D2 & D3). split; [exact D1|]. split; [exact D2|]. split; [eauto|].
    rewrite Forall_forall in Gs. destruct (Gs x Hx) as (Ek & Gx).
    destruct (tk_mf _ _ _ _ _ _ T (projT1 x)) as (_ & _ & K30). rewrite Ek in K30.
    intros rest ln. unfold rd_yfile. replace (mf =? 30) with false by lia.
    replace ((mf =? 8) && negb ((smt d =? 454) || (smt d =? 457) || (smt d =? 459))) with false.
    2:{ symmetry. destruct (Z.eqb_spec mf 8) as [E8|]; [|reflexivity]. rewrite E8 in Ek. destruct Gx as (_ & [Gn _] & _).
        unfold y_mt in *. destruct (tk_8 _ _ _ _ _ _ T _ Ek) as [Q|[Q|Q]]; rewrite Q in Gn; lia. }
    unfold rd_yfile_base, on_err, get_pos, bind. cbn [buf]. rewrite R by (rewrite app_length; lia). reflexivity.
  Qed.
  Lemma pr_secs_file f mat : yf_mf f <> 30 -> pr_yfile kind f mat = pr_secs (map snd (yf_secs f)) mat (yf_mf f).
  Proof.
    intros H. unfold pr_yfile, pr_secs. replace (yf_mf f =? 30) with false by lia. f_equal.
    unfold oconcat. induction (yf_secs f) as [|p l IH]; [reflexivity|]. cbn [map fold_right]. now rewrite IH.
  Qed.
  (** sections with different numbers in any order: all of them, in ascending order *)
  Theorem C31_any_order : forall xs mf mat, 0 < mat < 10000 -> xs <> [] ->
    Forall (fun x => k_mf (kind (projT1 x)) = mf /\ good_ysec x) xs -> NoDup (map y_mt xs) ->
    exists t f s, pr_secs xs mat mf = Val t /\ parse_yfile kind class_of mf (mkst t 0) = Ok f s
      /\ buf s = [] /\ yf_mf f = mf /\ ascending Z.lt (map fst (yf_secs f))
      /\ (forall x, In x xs <-> In (y_mt x, x) (yf_secs f)) /\ length (yf_secs f) = length xs.
  Proof.
    intros xs mf mat Hm Ne Gs Nd. destruct (secs_text xs mf mat Hm Ne Gs) as (t & n & l & d & t1 & P & Et & Nl & D & _ & _ & _ & R).
    destruct (fill_some y_mt xs Nd) as (m & Em). exists t, (mkyfile mf m), (mkst [] (0 + 1 + n)). split; [exact P|].
    split. { unfold parse_yfile, bind at 1. rewrite Et, (rd_line _ _ _ _ Nl D). specialize (R [] (0 + 1)). rewrite app_nil_r in R. rewrite R, Em. reflexivity. }
    destruct (fill_inv _ _ _ Em) as (A & B & C & _). cbn [yf_mf yf_secs buf]. split; [reflexivity|]. split; [reflexivity|]. split; [exact A|]. split; [exact C|].
    apply fill_from_ok in Em. destruct Em as [Em F]. assert (Pm := fold_place_perm _ _ F). rewrite app_nil_l, <- Em in Pm.
    apply Permutation.Permutation_length in Pm. now rewrite map_length in Pm.
  Qed.
  (** a repeated section number is rejected, in the text and in the constructor *)
  Theorem C31_duplicates : forall xs mf mat, 0 < mat < 10000 -> 
    Forall (fun x => k_mf (kind (projT1 x)) = mf /\ good_ysec x) xs -> ~ NoDup (map y_mt xs) ->
    make_yfile mf xs = Throw EStd
    /\ exists t s, pr_secs xs mat mf = Val t /\ parse_yfile kind class_of mf (mkst t 0) = Err EStd s.
  Proof.
    intros xs mf mat Hm Gs Nd. assert (Fd := fill_dup _ _ Nd). split; [unfold make_yfile; now rewrite Fd|].
    assert (Ne : xs <> []) by (intros ->; apply Nd; constructor).
    destruct (secs_text xs mf mat Hm Ne Gs) as (t & n & l & d & t1 & P & Et & Nl & D & _ & _ & _ & R).
    exists t. eexists. split; [exact P|]. unfold parse_yfile, bind at 1. rewrite Et, (rd_line _ _ _ _ Nl D). specialize (R [] (0 + 1)). rewrite app_nil_r in R.
    rewrite R, Fd. reflexivity.
  Qed.

  (** whatever is read or constructed is consistent *)
  Lemma div_loop_all {A} stop (bd : sdiv -> M A) (P : A -> Prop) : (forall d s x s', stop d = false -> bd d s = Ok x s' -> P x) ->
    forall fuel d s xs s', div_loop stop bd fuel d s = Ok xs s' -> Forall P xs.
  Proof.
    intros H. induction fuel as [|f IH]; intros d s xs s' E; cbn [div_loop] in E; [discriminate|].
    destruct (stop d) eqn:Sd; [injection E as <- _; constructor|].
    apply bind_ok in E. destruct E as (x & s1 & E1 & E). apply bind_ok in E. destruct E as (d' & s2 & E2 & E).
    apply bind_ok in E. destruct E as (r & s3 & E3 & E). injection E as <- _. constructor; eauto.
  Qed.
  Lemma lift_ok {A} (o : out A) s a s' : lift o s = Ok a s' -> o = Val a /\ s' = s.
  Proof. destruct o; cbn; try discriminate. intros H. injection H as <- <-. auto. Qed.
  Definition inv_ysec (mf : Z) (x : ysec) : Prop :=
    k_mf (kind (projT1 x)) = mf /\ 1 <= s_za (projT2 x) /\ real_le rzero (s_awr (projT2 x)) /\ inv (projT1 x) (s_body (projT2 x)).
  Lemma any_inv mf d s x s' : rd_any kind class_of mf d s = Ok x s' -> inv_ysec mf x.
  Proof.
    unfold rd_any. destruct (class_of mf (smt d)) as [c|] eqn:Ec; [|discriminate]. intros E.
    apply bind_ok in E. destruct E as (y & s1 & E1 & E). injection E as <- _. unfold inv_ysec. cbn [projT1 projT2].
    destruct (so_sound _ _ _ (tk_core _ _ _ _ _ _ T c) _ _ _ _ _ E1) as (_ & _ & _ & _ & Z1 & Z2 & _ & Z3 & _).
    split; [exact (tk_fun _ _ _ _ _ _ T _ _ _ Ec)|]. auto.
  Qed.
  Lemma file_of mf l m : fill y_mt l = Val m -> Forall (inv_ysec mf) l -> inv_yfile (mkyfile mf m).
  Proof.
    intros E F. destruct (fill_inv _ _ _ E) as (A & B & C & _). split; [exact A|]. cbn [yf_secs yf_mf].
    rewrite Forall_forall in *. intros p Hp. assert (Ep := B p Hp). split; [exact Ep|].
    assert (In (snd p) l) by (apply C; rewrite <- Ep; now destruct p). specialize (F _ H). destruct F as (K1 & K2 & K3 & K4). auto.
  Qed.
  Theorem C31_read_consistent : forall mf d s f s', rd_yfile kind class_of mf d s = Ok f s' -> yf_mf f = mf /\ inv_yfile f.
  Proof.
    intros mf d s f s'. assert (Em : forall m, inv_yfile (mkyfile m [])) by (intros; split; [exact Logic.I|constructor]).
    unfold rd_yfile. destruct (Z.eqb_spec mf 30) as [->|H30].
    - intros E. apply bind_ok in E. destruct E as ([] & s1 & _ & E). injection E as <- _. auto.
    - destruct ((mf =? 8) && negb ((smt d =? 454) || (smt d =? 457) || (smt d =? 459))) eqn:E8.
      + intros E. apply on_err_ok in E. apply bind_ok in E. destruct E as (b & s1 & _ & E). apply bind_ok in E. destruct E as (d' & s2 & _ & E).
        apply bind_ok in E. destruct E as ([] & s3 & _ & E). injection E as <- _. cbn [yf_mf]. split; [lia|auto].
      + intros E. unfold rd_yfile_base in E. apply on_err_ok in E. apply bind_ok in E. destruct E as (b & s1 & _ & E).
        apply bind_ok in E. destruct E as (l & s2 & E2 & E). apply bind_ok in E. destruct E as (m & s3 & E3 & E). injection E as <- _.
        apply lift_ok in E3. destruct E3 as [E3 _]. split; [reflexivity|]. eapply file_of; [exact E3|].
        eapply div_loop_all; [|exact E2]. intros d0 s0 x0 s0' _ H0. exact (any_inv _ _ _ _ _ H0).
  Qed.
  Theorem C31_make : forall mf (xs : list ysec) f, make_yfile mf xs = Val f ->
    yf_mf f = mf /\ ascending Z.lt (map fst (yf_secs f)) /\ Forall (fun p => fst p = y_mt (snd p)) (yf_secs f)
    /\ forall x, In x xs <-> In (y_mt x, x) (yf_secs f).
  Proof.
    intros mf xs f E. unfold make_yfile in E. destruct (fill y_mt xs) as [m| |] eqn:Em; try discriminate. injection E as <-.
    destruct (fill_inv _ _ _ Em) as (A & B & C & _). auto.
  Qed.
  (** the lookups find exactly the sections of the file *)
  Theorem C31_lookups : forall f, inv_yfile f -> forall mt (x : ysec),
    (yfile_section f mt = Val x <-> In x (yfile_MTs f) /\ y_mt x = mt)
    /\ (yfile_has f mt = true <-> exists x, In x (yfile_MTs f) /\ y_mt x = mt)
    /\ (yfile_has f mt = false -> yfile_section f mt = Throw EStd \/ yfile_section f mt = Throw EOor).
  Proof.
    intros f (A & F) mt x. unfold yfile_section, yfile_has, yfile_MTs.
    assert (K : forall x, mfind mt (yf_secs f) = Some x <-> In x (map snd (yf_secs f)) /\ y_mt x = mt).
    { intros y. rewrite Forall_forall in F. assert (Nd := strict_NoDup _ A). split.
      - intros H. apply mfind_In in H. split; [exact (in_map snd _ _ H)|]. symmetry. exact (proj1 (F _ H)).
      - intros (H & E). apply in_map_iff in H. destruct H as ([k v] & Ev & H). cbn in Ev. subst v. assert (Ek := proj1 (F _ H)). cbn in Ek.
        apply In_mfind; [exact Nd|]. rewrite <- E, <- Ek. exact H. }
    unfold at_, mhas. destruct (mfind mt (yf_secs f)) as [y|] eqn:E.
    - split; [|split; [|discriminate]].
      + split; [intros H; injection H as <-; apply K; reflexivity|]. intros H. apply K in H. congruence.
      + split; [intros _|reflexivity]. exists y. now apply K.
    - split; [|split].
      + split; [discriminate|]. intros H. apply K in H. discriminate.
      + split; [discriminate|]. intros (y & H). apply K in H. discriminate.
      + auto.
  Qed.
  (** printed in ascending order of MT *)
  Theorem C31_print_order : forall f mat, inv_yfile f -> yf_mf f <> 30 ->
    exists xs : list ysec, ascending Z.lt (map y_mt xs) /\ (forall x, In x xs <-> yfile_section f (y_mt x) = Val x)
      /\ pr_yfile kind f mat = pr_secs xs mat (yf_mf f).
  Proof.
    intros f mat I H. exists (map snd (yf_secs f)). split; [|split].
    - destruct I as (A & F). replace (map y_mt (map snd (yf_secs f))) with (map fst (yf_secs f)); [exact A|]. rewrite map_map. apply map_ext_in.
      intros p Hp. rewrite Forall_forall in F. exact (proj1 (F p Hp)).
    - intros x. destruct (C31_lookups f I (y_mt x) x) as (L & _). unfold yfile_MTs in L. rewrite L. tauto.
    - now apply pr_secs_file.
  Qed.

  (** ** C32: materials *)
  Theorem C32_material_round_trip : forall m, good_ymat m ->
    exists t, pr_ymat kind m = Val t
      /\ forall rest ln, parse_ymat kind class_of (mkst (t ++ rest) ln) = Ok m (mkst rest (ln + (nc_ymat m + 1))).
  Proof.
    intros m G. destruct (printed_mat _ _ _ _ _ _ T m G) as (s & _ & _ & _ & P & d & _ & H). eexists. split; [exact P|].
    exact (headed_parse _ (rd_ymat kind class_of) _ _ _ _ H ltac:(reflexivity)).
  Qed.
  (** files in any order *)
  Definition pr_files (fs : list yfile) (mat : Z) : pout := oconcat (fun f => pr_yfile kind f mat) fs +++ Val (pr_sdiv MEND).
  Lemma files_text fs mat : 0 < mat < 10000 -> Forall good_yfile fs ->
    exists t n l d t1, pr_files fs mat = Val t /\ t = l ++ LF :: t1 /\ noLF l /\ division_line l d
      /\ (fs <> [] -> smat d = mat)
      /\ forall rest ln, rd_ymat kind class_of d (mkst (t1 ++ rest) ln)
           = on_err (m <- lift (fill yf_mf fs) ;; ret (mkymat (smat d) m)) h_std (mkst rest (ln + n)).
  Proof.
    intros Hm Gs. assert (Ci : in_cols 4 0) by (unfold in_cols; cbn; lia).
    assert (Ce1 := canon_noLF 0 Ci). assert (Ce2 := canon_div 0 Ci ltac:(lia)).
    destruct (list_ex (fun f s => file_printed _ _ kind class_of mat f s) fs) as (ss & F2).
    { eapply Forall_impl; [|exact Gs]. intros f G. now apply (printed_file _ _ _ _ _ _ T). }
    set (t := flat_map (fun s => lines_text (file_all s)) ss ++ canonical_end 0 ++ [LF]).
    set (n := total nc_yfile fs + 1).
    assert (Rn : runs is_mend (rd_any_file kind class_of) fs t n).
    { eapply runs_of; [exact Ce1|exact Ce2|reflexivity|].
      clear -F2. induction F2 as [|a b l r H _ IH]; [constructor|]. constructor; [|auto].
      destruct H as (_ & _ & _ & _ & _ & d & D1 & D2 & D3 & Hh). exists d. split; [exact Hh|].
      unfold is_mend, is_fend_permissive, is_send_permissive. lia. }
    destruct (runs_head _ _ _ _ _ Rn) as (l & d & t1 & E & Nl & D & Sd & L & R).
    exists t, (n - 1), l, d, t1. split.
    { unfold pr_files.
      assert (Eo : oconcat (fun f => pr_yfile kind f mat) fs = Val (flat_map (fun s => lines_text (file_all s)) ss)).
      { clear -F2. unfold oconcat. induction F2 as [|a b l r H _ IH]; [reflexivity|]. cbn [fold_right flat_map]. rewrite IH.
        destruct H as (_ & _ & _ & _ & H & _). rewrite H. reflexivity. }
      rewrite Eo. change (pr_sdiv MEND) with (pr_sdiv (mksdiv zero_cont 0 0 0)). rewrite pr_end by exact Ci. reflexivity. }
    split; [exact E|]. split; [exact Nl|]. split; [exact D|]. split.
    { intros Ne. inversion F2 as [Qx Qs|x s xs' ss' H F2' Qx Qs]; [now elim Ne|].
      destruct H as (_ & _ & _ & _ & _ & d' & D1 & D2 & D3 & (l' & t' & Et & Nl' & Dl' & _)).
      unfold t in E. rewrite <- Qs in E. cbn [flat_map] in E. rewrite Et, <- !app_assoc in E. cbn [app] in E.
      assert (N1 := next_line_app l' (t' ++ flat_map (fun s => lines_text (file_all s)) ss' ++ canonical_end 0 ++ [LF]) Nl'). rewrite E, next_line_app in N1 by exact Nl.
      injection N1 as <- _. rewrite (division_fun _ _ _ D Dl'). exact D1. }
    intros rest ln. unfold rd_ymat, on_err, get_pos, bind. cbn [buf]. rewrite R by (rewrite app_length; lia). reflexivity.
  Qed.
  Theorem C32_any_order : forall fs mat, 0 < mat < 10000 -> fs <> [] -> Forall good_yfile fs -> NoDup (map yf_mf fs) ->
    exists t m s, pr_files fs mat = Val t /\ parse_ymat kind class_of (mkst t 0) = Ok m s
      /\ buf s = [] /\ ym_mat m = mat /\ ascending Z.lt (map fst (ym_files m))
      /\ (forall f, In f fs <-> In (yf_mf f, f) (ym_files m)) /\ length (ym_files m) = length fs.
  Proof.
    intros fs mat Hm Ne Gs Nd. destruct (files_text fs mat Hm Gs) as (t & n & l & d & t1 & P & Et & Nl & D & Dm & R).
    destruct (fill_some yf_mf fs Nd) as (m & Em). exists t, (mkymat mat m), (mkst [] (0 + 1 + n)). split; [exact P|].
    split. { unfold parse_ymat, bind at 1. rewrite Et, (rd_line _ _ _ _ Nl D). specialize (R [] (0 + 1)). rewrite app_nil_r in R. rewrite R, Em, (Dm Ne). reflexivity. }
    destruct (fill_inv _ _ _ Em) as (A & B & C & _). cbn [ym_mat ym_files buf]. split; [reflexivity|]. split; [reflexivity|]. split; [exact A|]. split; [exact C|].
    apply fill_from_ok in Em. destruct Em as [Em F]. assert (Pm := fold_place_perm _ _ F). rewrite app_nil_l, <- Em in Pm.
    apply Permutation.Permutation_length in Pm. now rewrite map_length in Pm.
  Qed.
  Theorem C32_duplicates : forall fs mat, 0 < mat < 10000 -> Forall good_yfile fs -> ~ NoDup (map yf_mf fs) ->
    make_ymat mat fs = Throw EStd
    /\ exists t s, pr_files fs mat = Val t /\ parse_ymat kind class_of (mkst t 0) = Err EStd s.
  Proof.
    intros fs mat Hm Gs Nd. assert (Fd := fill_dup _ _ Nd). split; [unfold make_ymat; now rewrite Fd|].
    destruct (files_text fs mat Hm Gs) as (t & n & l & d & t1 & P & Et & Nl & D & _ & R).
    exists t. eexists. split; [exact P|]. unfold parse_ymat, bind at 1. rewrite Et, (rd_line _ _ _ _ Nl D). specialize (R [] (0 + 1)). rewrite app_nil_r in R.
    rewrite R, Fd. reflexivity.
  Qed.
  (** after any files, a HEAD (or FEND) line with an unknown MF is rejected *)
  Lemma loop_stuck {A B} stop (bd : sdiv -> M A) (g : B -> text) cnt xs ss l d e r : noLF l -> division_line l d -> stop d = false ->
    (forall s, exists s', bd d s = Err e s') ->
    Forall2 (fun x s => exists h, headed bd (g s) h x (cnt x) /\ stop h = false) xs ss ->
    exists l0 d0 t0, flat_map g ss ++ l ++ LF :: r = l0 ++ LF :: t0 /\ noLF l0 /\ division_line l0 d0 /\ (length xs <= length t0)%nat
      /\ forall fuel ln, (length xs < fuel)%nat -> exists s', div_loop stop bd fuel d0 (mkst t0 ln) = Err e s'.
  Proof.
    intros N D S E. induction 1 as [|x s xs ss (h & (lh & th & Eh & Nh & Dh & Rh) & Sh) F2 IH]; cbn [flat_map].
    - exists l, d, r. cbn [app]. split; [reflexivity|]. split; [exact N|]. split; [exact D|]. split; [cbn; lia|].
      intros fuel ln Hf. destruct fuel as [|f]; [cbn in Hf; lia|]. cbn [div_loop]. rewrite S. unfold bind. destruct (E (mkst r ln)) as (s' & Es). rewrite Es. eauto.
    - destruct IH as (l1 & d1 & t1 & E1 & N1 & D1 & L1 & H1). exists lh, h, (th ++ flat_map g ss ++ l ++ LF :: r).
      rewrite Eh, <- !app_assoc. cbn [app]. split; [reflexivity|]. split; [exact Nh|]. split; [exact Dh|]. split.
      { rewrite E1, !app_length. cbn [length]. lia. }
      intros fuel ln Hf. destruct fuel as [|f]; [cbn in Hf; lia|]. cbn [div_loop length] in *. rewrite Sh. unfold bind at 1. rewrite Rh.
      unfold bind at 1. rewrite E1, (rd_line _ _ _ _ N1 D1). destruct (H1 f (ln + cnt x + 1) ltac:(lia)) as (s' & Es).
      unfold bind. rewrite Es. eauto.
  Qed.
  Lemma mat_stuck fs mat l d r : 0 < mat < 10000 -> Forall good_yfile fs -> noLF l -> division_line l d -> is_mend d = false ->
    (forall s, exists s', rd_any_file kind class_of d s = Err EStd s') ->
    exists t, oconcat (fun f => pr_yfile kind f mat) fs = Val t
      /\ forall ln, exists s, parse_ymat kind class_of (mkst (t ++ l ++ LF :: r) ln) = Err EStd s.
  Proof.
    intros Hm Gs Nl Dl Sl St.
    destruct (list_ex (fun f s => file_printed _ _ kind class_of mat f s) fs) as (ss & F2).
    { eapply Forall_impl; [|exact Gs]. intros f G. now apply (printed_file _ _ _ _ _ _ T). }
    exists (flat_map (fun s => lines_text (file_all s)) ss). split.
    { clear -F2. unfold oconcat. induction F2 as [|a b l r H _ IH]; [reflexivity|]. cbn [fold_right flat_map]. rewrite IH.
      destruct H as (_ & _ & _ & _ & H & _). rewrite H. reflexivity. }
    destruct (loop_stuck is_mend (rd_any_file kind class_of) (fun s => lines_text (file_all s)) nc_yfile fs ss l d EStd r Nl Dl Sl) as (l0 & d0 & t0 & E0 & N0 & D0 & L0 & H0).
    { exact St. }
    { clear -F2. induction F2 as [|a b l r H _ IH]; [constructor|]. constructor; [|auto].
      destruct H as (_ & _ & _ & _ & _ & d & D1 & D2 & D3 & Hh). exists d. split; [exact Hh|].
      unfold is_mend, is_fend_permissive, is_send_permissive. lia. }
    intros ln. rewrite E0. unfold parse_ymat, bind at 1. rewrite (rd_line _ _ _ _ N0 D0). unfold rd_ymat, on_err, get_pos, bind. cbn [buf].
    destruct (H0 (Datatypes.S (Datatypes.S (length t0))) (ln + 1) ltac:(lia)) as (s' & Es). rewrite Es. cbn. eauto.
  Qed.
  Theorem C32_unknown_file : forall fs mat l d rest, 0 < mat < 10000 -> Forall good_yfile fs ->
    noLF l -> division_line l d -> known_mf (smf d) = false -> smf d <> 0 ->
    exists t s, oconcat (fun f => pr_yfile kind f mat) fs = Val t
      /\ parse_ymat kind class_of (mkst (t ++ l ++ LF :: rest) 0) = Err EStd s.
  Proof.
    intros fs mat l d rest Hm Gs Nl Dl K Z. destruct (mat_stuck fs mat l d rest Hm Gs Nl Dl) as (t & P & H).
    - unfold is_mend, is_fend_permissive, is_send_permissive. lia.
    - intros s. unfold rd_any_file. rewrite K. eexists. reflexivity.
    - destruct (H 0) as (s & E). exists t, s. auto.
  Qed.
  Theorem C32_read_consistent : forall d s m s', rd_ymat kind class_of d s = Ok m s' -> ym_mat m = smat d /\ inv_ymat m.
  Proof.
    intros d s m s' E. unfold rd_ymat in E. apply on_err_ok in E. apply bind_ok in E. destruct E as (b & s1 & _ & E).
    apply bind_ok in E. destruct E as (l & s2 & E2 & E). apply bind_ok in E. destruct E as (r & s3 & E3 & E). injection E as <- _.
    apply lift_ok in E3. destruct E3 as [E3 _]. split; [reflexivity|].
    assert (F : Forall (fun f : yfile => known_mf (yf_mf f) = true /\ inv_yfile f) l).
    { eapply div_loop_all; [|exact E2]. intros d0 s0 x0 s0' _ H0. unfold rd_any_file in H0. destruct (known_mf (smf d0)) eqn:K; [|discriminate].
      apply C31_read_consistent in H0. destruct H0 as [-> H0]. auto. }
    destruct (fill_inv _ _ _ E3) as (A & B & C & _). split; [exact A|]. cbn [ym_files]. rewrite Forall_forall in *. intros p Hp. assert (Ep := B p Hp). split; [exact Ep|].
    apply F. apply C. rewrite <- Ep. now destruct p.
  Qed.

  (** ** C32, C34: tapes *)
  Fixpoint nc_ymats (l : list ymat) : Z := match l with [] => 0 | m :: l' => nc_ymat m + 1 + nc_ymats l' end.
  Definition mats_ok (l : list ymat) : Prop := Forall good_ymat l.
  Lemma mats_printed l : Forall good_ymat l -> exists ss, Forall2 (fun m s => mat_printed _ _ kind class_of m s) l ss
     /\ oconcat (pr_ymat kind) l = Val (flat_map (fun s => lines_text (mat_all s)) ss)
     /\ Forall2 (fun m s => exists h, headed (rd_ymat kind class_of) (lines_text (mat_all s)) h m (nc_ymat m) /\ not_tend h = false) l ss.
  Proof.
    intros Gs. destruct (list_ex (fun m s => mat_printed _ _ kind class_of m s) l) as (ss & F2).
    { eapply Forall_impl; [|exact Gs]. intros m G. now apply (printed_mat _ _ _ _ _ _ T). }
    exists ss. split; [exact F2|]. split.
    - clear -F2. unfold oconcat. induction F2 as [|a b l r H _ IH]; [reflexivity|]. cbn [fold_right flat_map]. rewrite IH.
      destruct H as (_ & _ & _ & H & _). rewrite H. reflexivity.
    - clear -F2 Gs. induction F2 as [|a b l r H _ IH]; [constructor|]. inversion Gs as [|? ? G Gs']; subst. constructor; [|auto].
      destruct H as (_ & _ & _ & _ & d & D1 & Hh). exists d. split; [exact Hh|]. unfold not_tend. destruct G as (G & _). lia.
  Qed.
  (** the tape number is not printed: the tape that is read back has number 0 *)
  Theorem C32_tape_round_trip : forall t, length (tptext (yt_id t)) = 66%nat -> noLF (tptext (yt_id t)) ->
    yt_mats t <> [] -> len (yt_mats t) < 2 ^ 31 -> Forall good_ymat (yt_mats t) ->
    exists u, pr_ytape kind t = Val u
      /\ forall rest ln, rd_ytape kind class_of (mkst (u ++ rest) ln)
           = Ok (mkytape (mktpid (tptext (yt_id t)) 0) (yt_mats t)) (mkst rest (ln + (nc_ymats (yt_mats t) + 2))).
  Proof.
    intros t Hl Hn Ne Hlen Gs. destruct (mats_printed _ Gs) as (ss & _ & Po & F2).
    assert (Ci : in_cols 4 (-1)) by (unfold in_cols; cbn; lia).
    assert (Ce1 := canon_noLF (-1) Ci). assert (Ce2 := canon_div (-1) Ci ltac:(lia)).
    assert (Rn := runs_of not_tend (rd_ymat kind class_of) (fun s => lines_text (mat_all s)) nc_ymat _ _ _ _ Ce1 Ce2 ltac:(reflexivity) F2).
    destruct (runs_head _ _ _ _ _ Rn) as (l & d & t1 & E & Nl & D & Sd & L & R).
    eexists. split.
    { unfold pr_ytape. rewrite Po. change (pr_sdiv TEND) with (pr_sdiv (mksdiv zero_cont (-1) 0 0)). rewrite pr_end by exact Ci. cbn [oapp obind]. reflexivity. }
    intros rest ln. rewrite E, <- app_assoc. assert (Ht := reads_tpid (mktpid (tptext (yt_id t)) 0) 0).
    assert (Ep : pr_tpid (yt_id t) 0 0 0 = pr_tpid (mktpid (tptext (yt_id t)) 0) 0 0 0) by reflexivity.
    rewrite Ep. unfold rd_ytape. apply on_err_ok. unfold bind at 1. rewrite Ht.
    all: cycle 1.
    { exact Hl. } { exact Hn. } { vm_compute. reflexivity. }
    unfold get_pos, bind at 1. cbn [buf]. unfold bind at 1. unfold rd_ymats, bind at 1. rewrite <- app_assoc. cbn [app].
    rewrite (rd_line _ _ _ _ Nl D), R by (rewrite !app_length; cbn [length]; rewrite app_length; lia).
    unfold lift, make_ytape. cbn [tptext].
    assert (Hi : i32 (Z.of_nat (length (yt_mats t))) = Z.of_nat (length (yt_mats t))).
    { apply i32_small. unfold len in Hlen. change (2 ^ 31) with 2147483648 in Hlen. lia. }
    rewrite Hi. replace (Z.of_nat (length (yt_mats t)) =? 0) with false by (destruct (yt_mats t); [congruence|cbn [length]; lia]).
    unfold ret. do 2 f_equal. enough (total nc_ymat (yt_mats t) = nc_ymats (yt_mats t)) by lia.
    clear. induction (yt_mats t) as [|m l IH]; [reflexivity|]. cbn [total nc_ymats]. lia.
  Qed.
  Corollary C32_tape_exact : forall t, good_ytape t ->
    exists u, pr_ytape kind t = Val u
      /\ forall rest ln, rd_ytape kind class_of (mkst (u ++ rest) ln) = Ok t (mkst rest (ln + (nc_ymats (yt_mats t) + 2))).
  Proof.
    intros t (A & B & C & D & E & F). destruct (C32_tape_round_trip t A B D E F) as (u & P & R). exists u. split; [exact P|].
    intros rest ln. rewrite R. do 2 f_equal. destruct t as [[x n] ms]. cbn in *. now subst n.
  Qed.
End Classes.
