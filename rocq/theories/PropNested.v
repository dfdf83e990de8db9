(** PropNested.v -- C72: editing and cleaning inside a tape, through the references that material( mat ), file( mf ) and section( mt ) return. *)
From Coq Require Import QArith ZifyBool String.
From Verif Require Import Base Disco DiscoProofs Records RecordProofs RecordSound Spec LineFacts
  Normal Tree TreeSpec TreeProofs TreeGrammar TreeMaps PropRecords PropRecords3 PropTree PropTree2 Nested EditSpec PropEdit PropEdit2.
Open Scope Z_scope.
Open Scope list_scope.
Notation length := List.length.

(** ** Specification *)
(** a tape as seen through its look-ups: the materials under each number, each seen through its own look-ups (EditSpec.view) *)
Definition shows_tape (T : ttape) (F : Z -> list view) : Prop :=
  forall mat, tape_number T mat = Z.of_nat (length (F mat))
    /\ tape_has T mat = (match F mat with [] => false | _ => true end)
    /\ match F mat with
       | [] => tape_material T mat = Throw EOor
       | vs => exists l, tape_material T mat = Val l /\ Forall2 shows l vs
       end.
(** the cleaning of some sections one after the other: either all are cleaned, or there is a first one that cannot be; those before it are cleaned, it is left as
    the failed clean() leaves it (C25), those after it are untouched *)
Definition clean_run {K} (lt : K -> K -> Prop) (f f' : K -> option tsec) (x : option exn) : Prop :=
  match x with
  | None => (forall k s, f k = Some s -> snd (sec_clean s) = None)
            /\ forall k, f' k = option_map (fun s => fst (sec_clean s)) (f k)
  | Some e => exists k0 s0, f k0 = Some s0 /\ snd (sec_clean s0) = Some e
      /\ (forall k s, lt k k0 -> f k = Some s -> snd (sec_clean s) = None)
      /\ (forall k, lt k k0 \/ k = k0 -> f' k = option_map (fun s => fst (sec_clean s)) (f k))
      /\ (forall k, lt k0 k -> f' k = f k)
  end.
Definition lex (p q : Z * Z) : Prop := fst p < fst q \/ fst p = fst q /\ snd p < snd q.
Definition lex4 (p q : (Z * nat) * (Z * Z)) : Prop :=
  fst (fst p) < fst (fst q) \/ fst (fst p) = fst (fst q) /\ ((snd (fst p) < snd (fst q))%nat \/ snd (fst p) = snd (fst q) /\ lex (snd p) (snd q)).
Definition same_shape (v v' : view) : Prop := v_mat v' = v_mat v /\ forall mf, v_has v' mf = v_has v mf.
Definition msec (v : view) (p : Z * Z) : option tsec := v_sec v (fst p) (snd p).
Definition tsec_at (F : Z -> list view) (p : (Z * nat) * (Z * Z)) : option tsec :=
  match nth_error (F (fst (fst p))) (snd (fst p)) with Some v => msec v (snd p) | None => None end.

(** what is cleaned in a material *)
Inductive part := TheMaterial | TheFile (mf : Z) | TheSection (mf mt : Z).
Definition part_clean (c : part) (v v' : view) (x : option exn) : Prop :=
  same_shape v v' /\
  match c with
  | TheMaterial => clean_run lex (msec v) (msec v') x
  | TheFile mf => (forall k mt, k <> mf -> v_sec v' k mt = v_sec v k mt)
                  /\ if v_has v mf then clean_run Z.lt (v_sec v mf) (v_sec v' mf) x
                     else x = Some EOor /\ forall mt, v_sec v' mf mt = v_sec v mf mt
  | TheSection mf mt => (forall k j, k <> mf \/ j <> mt -> v_sec v' k j = v_sec v k j)
                        /\ match v_sec v mf mt with
                           | Some s => v_sec v' mf mt = Some (fst (sec_clean s)) /\ x = snd (sec_clean s)
                           | None => v_sec v' mf mt = None /\ x = Some EOor
                           end
  end.
(** the operations on a tape: its own, an edit of the i-th material with number mat, the cleaning of a part of that material, of everything *)
Inductive nop :=
| NInsert (m : tmat) | NReplace (m : tmat) | NRemove (mat : Z)
| NEdit (mat : Z) (i : nat) (o : mop) | NClean (mat : Z) (i : nat) (c : part) | NCleanAll.
Definition nop_ok (o : nop) : Prop :=
  match o with NInsert m | NReplace m => made_mat m | NEdit _ _ o => op_ok o | _ => True end.
(** what the program does *)
Definition part_run (c : part) : edit tmat :=
  match c with
  | TheMaterial => mat_clean
  | TheFile mf => in_file mf file_clean
  | TheSection mf mt => in_file mf (in_section mt sec_clean)
  end.
Definition nop_run (o : nop) (T : ttape) : out (ttape * option exn) :=
  match o with
  | NInsert m => Val (tape_insert m T, None)
  | NReplace m => Val (tape_replace m T, None)
  | NRemove mat => Val (tape_remove mat T, None)
  | NEdit mat i o => in_material mat i (mop_run o) T
  | NClean mat i c => in_material mat i (part_run c) T
  | NCleanAll => Val (tape_clean T)
  end.
(** what is expected *)
Definition same_but (mat : Z) (F F' : Z -> list view) : Prop := forall k, k <> mat -> F' k = F k.
Definition nop_spec (o : nop) (F F' : Z -> list view) (x : option exn) : Prop :=
  match o with
  | NInsert m => x = None /\ same_but (tm_mat m) F F' /\ exists v, shows m v /\ F' (tm_mat m) = F (tm_mat m) ++ [v]
  | NReplace m => x = None /\ same_but (tm_mat m) F F' /\ exists v, shows m v /\ F' (tm_mat m) = [v]
  | NRemove mat => x = None /\ same_but mat F F' /\ F' mat = []
  | NEdit mat i o => same_but mat F F' /\
      match F mat with
      | [] => F' mat = [] /\ x = Some EOor
      | l => exists a v b, l = a ++ v :: b /\ length a = i /\ F' mat = a ++ fst (mop_spec o v) :: b /\ x = snd (mop_spec o v)
      end
  | NClean mat i c => same_but mat F F' /\
      match F mat with
      | [] => F' mat = [] /\ x = Some EOor
      | l => exists a v b v', l = a ++ v :: b /\ length a = i /\ F' mat = a ++ v' :: b /\ part_clean c v v' x
      end
  | NCleanAll => (forall mat, Forall2 same_shape (F mat) (F' mat)) /\ clean_run lex4 (tsec_at F) (tsec_at F') x
  end.
(** histories *)
Fixpoint nrun (l : list nop) (T : ttape) : out (ttape * list (option exn)) :=
  match l with
  | [] => Val (T, [])
  | o :: l' => match nop_run o T with
               | Val (T', x) => match nrun l' T' with Val (T'', xs) => Val (T'', x :: xs) | Throw e => Throw e | Undef => Undef end
               | Throw e => Throw e
               | Undef => Undef
               end
  end.
Inductive nhist : list nop -> (Z -> list view) -> (Z -> list view) -> list (option exn) -> Prop :=
| nh_nil F : nhist [] F F []
| nh_cons o l F F1 F2 x xs : nop_spec o F F1 x -> nhist l F1 F2 xs -> nhist (o :: l) F F2 (x :: xs).
(** an index beyond the materials with that number *)
Definition beyond (o : nop) (T : ttape) : Prop :=
  match o with NEdit mat i _ | NClean mat i _ => tape_has T mat = true /\ tape_number T mat <= Z.of_nat i | _ => False end.

(** ** Cleaning *)
Definition cl (s : tsec) : tsec := fst (sec_clean s).
Section Clean.
  Context {A K : Type} (sec : A -> K -> option tsec) (lt : K -> K -> Prop) (c : edit A).
  Definition ok_step (a : A) : Prop := clean_run lt (sec a) (sec (fst (c a))) (snd (c a)).
  Definition klex (p q : Z * K) : Prop := fst p < fst q \/ fst p = fst q /\ lt (snd p) (snd q).
  Definition ksec (l : list (Z * A)) (p : Z * K) : option tsec := match mfind (fst p) l with Some a => sec a (snd p) | None => None end.
  Lemma clean_map l : ascending Z.lt (map fst l) -> Forall (fun p => ok_step (snd p)) l -> clean_run klex (ksec l) (ksec (fst (clean_all c l))) (snd (clean_all c l)).
  Proof.
    induction l as [|[k a] l IH]; intros Ha Hs.
    - cbn. split; [discriminate|reflexivity].
    - cbn [map fst] in Ha. apply asc_cons in Ha; [|intros; lia]. destruct Ha as [Ha Hl]. inversion Hs as [|? ? step Hs2]; subst. specialize (IH Hl Hs2). unfold ok_step in step; cbn [snd] in step.
      assert (Hk : forall j b, mfind j l = Some b -> k < j).
      { intros j b E. apply mfind_In, (in_map fst) in E. rewrite Forall_forall in Ha. apply Ha. exact E. }
      cbn [clean_all]. destruct (c a) as [a' [e|]]; cbn [fst snd] in step |- *.
      + destruct step as (k0 & s0 & E0 & C0 & B & U & V). exists (k, k0), s0. unfold ksec at 1. cbn [mfind fst snd]. rewrite Z.eqb_refl. split; [exact E0|]. split; [exact C0|]. split; [|split].
        * intros [j q] s [L|[L M]]; cbn [fst snd] in L; unfold ksec; cbn [mfind fst snd]; destruct (Z.eqb_spec j k) as [->|N]; try lia; [|now apply B].
          destruct (mfind j l) eqn:E; [apply Hk in E; lia|discriminate].
        * intros [j q] H. unfold ksec. cbn [mfind fst snd]. destruct (Z.eqb_spec j k) as [->|N].
          -- apply U. destruct H as [[L|[_ L]]|L]; [cbn in L; lia|now left|right; congruence].
          -- destruct H as [[L|[L _]]|L]; cbn [fst snd] in L; [|lia|congruence]. destruct (mfind j l) eqn:E; [apply Hk in E; lia|reflexivity].
        * intros [j q] H. unfold ksec. cbn [mfind fst snd]. destruct (Z.eqb_spec j k) as [->|N]; [|reflexivity]. destruct H as [L|[_ L]]; cbn [fst snd] in L; [lia|now apply V].
      + destruct step as (S1 & S2). destruct (clean_all c l) as [l' [e|]]; cbn [fst snd] in IH |- *.
        * destruct IH as ([j0 q0] & s0 & E0 & C0 & B & U & V). exists (j0, q0), s0.
          assert (N0 : k < j0). { unfold ksec in E0. cbn [fst snd] in E0. destruct (mfind j0 l) eqn:E; [now apply Hk in E|discriminate]. }
          split. { unfold ksec in *. cbn [mfind fst snd] in *. now replace (j0 =? k) with false by lia. } split; [exact C0|]. split; [|split].
          -- intros [j q] s H. specialize (B (j, q) s H). unfold ksec in *. cbn [mfind fst snd] in *. destruct (Z.eqb_spec j k) as [->|N]; [apply S1|exact B].
          -- intros [j q] H. specialize (U (j, q) H). unfold ksec in *. cbn [mfind fst snd] in *. destruct (Z.eqb_spec j k) as [->|N]; [apply S2|exact U].
          -- intros [j q] H. specialize (V (j, q) H). unfold ksec in *. cbn [mfind fst snd] in *. destruct (Z.eqb_spec j k) as [->|N]; [|exact V].
             destruct H as [L|[L _]]; cbn [fst snd] in L; lia.
        * destruct IH as (I1 & I2). split.
          -- intros [j q] s. specialize (I1 (j, q) s). unfold ksec in *. cbn [mfind fst snd] in *. destruct (j =? k); [apply S1|exact I1].
          -- intros [j q]. specialize (I2 (j, q)). unfold ksec in *. cbn [mfind fst snd] in *. destruct (j =? k); [apply S2|exact I2].
  Qed.
  Definition qlex (p q : (Z * nat) * K) : Prop :=
    fst (fst p) < fst (fst q) \/ fst (fst p) = fst (fst q) /\ ((snd (fst p) < snd (fst q))%nat \/ snd (fst p) = snd (fst q) /\ lt (snd p) (snd q)).
  Definition qsec (l : list (Z * A)) (p : (Z * nat) * K) : option tsec :=
    match nth_error (mmrange (fst (fst p)) l) (snd (fst p)) with Some a => sec a (snd p) | None => None end.
  Lemma clean_multi l : ascending Z.le (map fst l) -> Forall (fun p => ok_step (snd p)) l -> clean_run qlex (qsec l) (qsec (fst (clean_all c l))) (snd (clean_all c l)).
  Proof.
    induction l as [|[k a] l IH]; intros Ha Hs.
    - cbn. split; intros [[j i] q]; unfold qsec; cbn; destruct i; discriminate || reflexivity.
    - cbn [map fst] in Ha. apply asc_cons in Ha; [|intros; lia]. destruct Ha as [Ha Hl]. inversion Hs as [|? ? step Hs2]; subst. specialize (IH Hl Hs2). unfold ok_step in step; cbn [snd] in step.
      assert (Hk : forall j i b, nth_error (mmrange j l) i = Some b -> k <= j).
      { intros j i b E. apply nth_error_In in E. unfold mmrange in E. apply in_map_iff in E. destruct E as ([j' b'] & <- & E). apply filter_In in E. destruct E as [E J].
        apply (in_map fst) in E. rewrite Forall_forall in Ha. specialize (Ha _ E). cbn in *. lia. }
      assert (R0 : forall b l j i q, qsec ((k, b) :: l) ((j, i), q) = if j =? k then match i with O => sec b q | S i' => qsec l ((j, i'), q) end else qsec l ((j, i), q)).
      { intros b l0 j i q. unfold qsec, mmrange. cbn [filter fst snd]. rewrite (Z.eqb_sym k j). destruct (j =? k); [destruct i|]; reflexivity. }
      cbn [clean_all]. destruct (c a) as [a' [e|]]; cbn [fst snd] in step |- *.
      + destruct step as (k0 & s0 & E0 & C0 & B & U & V). exists ((k, O), k0), s0. rewrite R0, Z.eqb_refl. split; [exact E0|]. split; [exact C0|]. split; [|split].
        * intros [[j i] q] s H. rewrite R0. destruct (Z.eqb_spec j k) as [->|N].
          -- destruct H as [L|[_ [L|[L M]]]]; cbn [fst snd] in L; [lia|lia|]. subst i. now apply B.
          -- destruct H as [L|[L _]]; cbn [fst snd] in L; [|lia]. unfold qsec. cbn [fst snd]. destruct (nth_error _ _) eqn:E; [apply Hk in E; lia|discriminate].
        * intros [[j i] q] H. rewrite !R0. destruct (Z.eqb_spec j k) as [->|N].
          -- destruct H as [[L|[_ [L|[L M]]]]|L]; cbn [fst snd] in L; [lia|lia|subst i; apply U; now left|]. injection L as -> ->. apply U. now right.
          -- destruct H as [[L|[L _]]|L]; cbn [fst snd] in L; [|lia|congruence]. unfold qsec. cbn [fst snd]. destruct (nth_error _ _) eqn:E; [apply Hk in E; lia|reflexivity].
        * intros [[j i] q] H. rewrite !R0. destruct (Z.eqb_spec j k) as [->|N]; [|reflexivity]. destruct i; [|reflexivity].
          destruct H as [L|[_ [L|[_ L]]]]; cbn [fst snd] in L; [lia|lia|now apply V].
      + destruct step as (S1 & S2).
        assert (Q : forall j i q j0 i0 q0, qlex ((j, if j =? k then S i else i), q) ((j0, if j0 =? k then S i0 else i0), q0) <-> qlex ((j, i), q) ((j0, i0), q0)).
        { intros. unfold qlex. cbn [fst snd]. destruct (Z.eqb_spec j k), (Z.eqb_spec j0 k); subst; split; intros [L|[L M]]; auto; try lia; right; (split; [exact L|]); destruct M as [M|[M M']]; auto; try lia; try (left; lia); try (right; split; [lia|exact M']). }
        destruct (clean_all c l) as [l' [e|]]; cbn [fst snd] in IH |- *.
        * destruct IH as ([[j0 i0] q0] & s0 & E0 & C0 & B & U & V). exists ((j0, if j0 =? k then S i0 else i0), q0), s0.
          assert (N0 : k <= j0). { unfold qsec in E0. cbn [fst snd] in E0. destruct (nth_error (mmrange j0 l) i0) eqn:E; [now apply Hk in E|discriminate]. }
          split. { rewrite R0. now destruct (j0 =? k). } split; [exact C0|]. split; [|split].
          -- intros [[j i] q] s H. rewrite R0. destruct (Z.eqb_spec j k) as [->|N].
             ++ destruct i as [|i]; [apply S1|]. apply B. apply (Q k i q j0 i0 q0). now rewrite Z.eqb_refl.
             ++ apply B. apply (Q j i q j0 i0 q0). now replace (j =? k) with false by lia.
          -- intros [[j i] q] H. rewrite !R0. destruct (Z.eqb_spec j k) as [->|N].
             ++ destruct i as [|i]; [apply S2|]. apply U. destruct H as [H|H]; [left; apply (Q k i q j0 i0 q0); now rewrite Z.eqb_refl|right].
                injection H as -> H ->. rewrite Z.eqb_refl in H. congruence.
             ++ apply U. destruct H as [H|H]; [left; apply (Q j i q j0 i0 q0); now replace (j =? k) with false by lia|right].
                injection H as -> -> ->. now replace (j0 =? k) with false by lia.
          -- intros [[j i] q] H. rewrite !R0. destruct (Z.eqb_spec j k) as [->|N].
             ++ destruct i as [|i].
                ** exfalso. destruct H as [L|[L M]]; cbn [fst snd] in *; [lia|]. subst. rewrite Z.eqb_refl in M. lia.
                ** apply V. apply (Q j0 i0 q0 k i q). now rewrite Z.eqb_refl.
             ++ apply V. apply (Q j0 i0 q0 j i q). now replace (j =? k) with false by lia.
        * destruct IH as (I1 & I2). split.
          -- intros [[j i] q] s. rewrite R0. destruct (j =? k); [destruct i; [apply S1|apply I1]|apply I1].
          -- intros [[j i] q]. rewrite !R0. destruct (j =? k); [destruct i; [apply S2|apply I2]|apply I2].
  Qed.
End Clean.

Lemma clean_run_iso {K1 K2} (lt1 : K1 -> K1 -> Prop) (lt2 : K2 -> K2 -> Prop) (g : K1 -> K2) (h : K2 -> K1) f1 f1' f2 f2' x :
  (forall k, g (h k) = k) -> (forall k, h (g k) = k) -> (forall k j, lt1 k j <-> lt2 (g k) (g j)) -> (forall k, f1 k = f2 (g k)) -> (forall k, f1' k = f2' (g k)) ->
  clean_run lt2 f2 f2' x -> clean_run lt1 f1 f1' x.
Proof.
  intros GH HG L E E'. destruct x as [e|]; cbn.
  - intros (k0 & s0 & E0 & C0 & B & U & V). exists (h k0), s0. rewrite E, GH. split; [exact E0|]. split; [exact C0|]. split; [|split].
    + intros k s Hk. rewrite E. apply B. apply L in Hk. now rewrite GH in Hk.
    + intros k Hk. rewrite E, E'. apply U. destruct Hk as [Hk|Hk]; [left; apply L in Hk; now rewrite GH in Hk|right; subst; apply GH].
    + intros k Hk. rewrite E, E'. apply V. apply L in Hk. now rewrite GH in Hk.
  - intros (A & B). split; intros k; rewrite ?E, ?E'; auto. intros s. apply A.
Qed.
Lemma file_cleaned f : wff f ->
  clean_run Z.lt (fun mt => mfind mt (tf_secs f)) (fun mt => mfind mt (tf_secs (fst (file_clean f)))) (snd (file_clean f)).
Proof.
  intros [W _]. pose proof (clean_map (fun s (_ : unit) => Some s) (fun _ _ => False) sec_clean (tf_secs f) W) as C. unfold file_clean.
  destruct (clean_all sec_clean (tf_secs f)) as [l x]. cbn [fst snd tf_secs] in *.
  eapply (clean_run_iso _ _ (fun z => (z, tt)) fst); [..|apply C].
  - now intros [z []].
  - reflexivity.
  - intros k j. unfold klex. cbn. tauto.
  - intros k. unfold ksec. cbn. now destruct (mfind k (tf_secs f)).
  - intros k. unfold ksec. cbn. now destruct (mfind k l).
  - apply Forall_forall. intros [k s] _. unfold ok_step. cbn [snd]. destruct (snd (sec_clean s)) as [e|] eqn:E; cbn.
    + exists tt, s. split; [reflexivity|]. split; [exact E|]. split; [intros ? ? []|]. split; [reflexivity|intros ? []].
    + split; [intros _ s0 K; injection K as <-; exact E|reflexivity].
Qed.
Lemma mat_cleaned m : wfm m ->
  clean_run lex (fun p => look m (fst p) (snd p)) (fun p => look (fst (mat_clean m)) (fst p) (snd p)) (snd (mat_clean m)).
Proof.
  intros [W1 W2]. pose proof (clean_map (fun f mt => mfind mt (tf_secs f)) Z.lt file_clean (tm_files m) W1) as C. unfold mat_clean.
  destruct (clean_all file_clean (tm_files m)) as [l x]. cbn [fst snd] in *. apply C.
  eapply Forall_impl; [|exact W2]. intros [k f] (_ & _ & Wf). unfold ok_step. cbn [snd] in *. now apply file_cleaned.
Qed.
Lemma clean_all_has {A} (c : edit A) l k : mhas k (fst (clean_all c l)) = mhas k l.
Proof.
  assert (H := clean_all_keys c l). apply eq_true_iff_eq. now rewrite !mhas_In, H.
Qed.
Lemma mat_clean_shape m : tm_mat (fst (mat_clean m)) = tm_mat m /\ forall mf, mat_hasMF (fst (mat_clean m)) mf = mat_hasMF m mf.
Proof.
  unfold mat_clean, mat_hasMF. pose proof (fun k => clean_all_has file_clean (tm_files m) k) as H.
  destruct (clean_all file_clean (tm_files m)) as [l x]. cbn [fst tm_mat tm_files] in *. auto.
Qed.

(** every part of a material *)
Lemma part_sim c m v : wfm m -> shows m v -> part_clean c v (view_of (fst (part_run c m))) (snd (part_run c m)).
Proof.
  intros W H. apply shows_iff in H. destruct H as (Hm & Hh & Hl). unfold part_clean, same_shape. cbn [view_of v_mat v_has v_sec].
  assert (Hw : forall mf f, mfind mf (tm_files m) = Some f -> wff f) by (intros mf f E; now destruct (mfind_Forall _ _ _ _ (proj2 W) E) as (_ & _ & K)).
  destruct c as [|mf|mf mt]; cbn [part_run].
  - destruct (mat_clean_shape m) as (A & B). split; [split; [congruence|intros; now rewrite B, Hh]|].
    eapply (clean_run_iso _ _ (fun k => k) (fun k => k)); [..|exact (mat_cleaned m W)]; try reflexivity.
    intros [a b]. unfold msec. cbn [fst snd]. now rewrite Hl.
  - rewrite <- Hh, has_find. destruct (mfind mf (tm_files m)) as [f|] eqn:E.
    + destruct (in_file_look mf file_clean m f _ _ E (surjective_pairing _)) as (A & B & C & D). split; [split; [congruence|intros; now rewrite C, Hh]|].
      split. { intros k mt N. rewrite D, <- Hl. now replace (k =? mf) with false by lia. }
      rewrite A. eapply (clean_run_iso _ _ (fun k => k) (fun k => k)); [..|exact (file_cleaned f (Hw _ _ E))]; try reflexivity.
      * intros mt. rewrite <- Hl. unfold look. now rewrite E.
      * intros mt. rewrite D, Z.eqb_refl. reflexivity.
    + unfold in_file. rewrite E. cbn [fst snd]. split; [split; [congruence|intros; now rewrite Hh]|]. split; [intros; now rewrite Hl|]. split; [reflexivity|]. intros mt. now rewrite Hl.
  - destruct (mfind mf (tm_files m)) as [f|] eqn:E.
    + destruct (in_file_look mf (in_section mt sec_clean) m f _ _ E (surjective_pairing _)) as (A & B & C & D). split; [split; [congruence|intros; now rewrite C, Hh]|].
      assert (Es : v_sec v mf mt = mfind mt (tf_secs f)) by (rewrite <- Hl; unfold look; now rewrite E). rewrite A. unfold in_section in *. rewrite Es.
      destruct (mfind mt (tf_secs f)) as [s|] eqn:F.
      * destruct (sec_clean s) as [s' y]. cbn [fst snd tf_secs] in *. split.
        -- intros k j N. rewrite D, <- Hl. destruct (Z.eqb_spec k mf) as [->|Nk]; [|reflexivity]. rewrite mfind_upd. replace (j =? mt) with false by lia.
           unfold look. now rewrite E.
        -- split; [|reflexivity]. rewrite D, Z.eqb_refl, mfind_upd, Z.eqb_refl, F. reflexivity.
      * cbn [fst snd] in *. split.
        -- intros k j N. rewrite D, <- Hl. destruct (Z.eqb_spec k mf) as [->|Nk]; [|reflexivity]. unfold look. now rewrite E.
        -- split; [|reflexivity]. now rewrite D, Z.eqb_refl.
    + unfold in_file. rewrite E. cbn [fst snd]. split; [split; [congruence|intros; now rewrite Hh]|]. split; [intros; now rewrite Hl|].
      rewrite <- Hl. unfold look. rewrite E. auto.
Qed.

(** ** the multimap *)
Lemma mm_split {A} k i v (l : list (Z * A)) m : nth_error (mmrange k l) i = Some m ->
  exists a b, l = a ++ (k, m) :: b /\ mmupd k i v l = a ++ (k, v) :: b /\ length (mmrange k a) = i.
Proof.
  revert i. induction l as [|[j w] l IH]; intros i; [destruct i; discriminate|]. unfold mmrange. cbn [filter fst mmupd]. rewrite (Z.eqb_sym j k).
  destruct (Z.eqb_spec k j) as [<-|N].
  - destruct i as [|i]; cbn [map nth_error snd].
    + intros K. injection K as ->. exists [], l. auto.
    + intros K. destruct (IH i K) as (a & b & -> & -> & L). exists ((k, w) :: a), b. split; [reflexivity|]. split; [reflexivity|]. unfold mmrange. cbn [filter fst]. rewrite Z.eqb_refl.
      cbn [map length]. f_equal. exact L.
  - intros K. destruct (IH i K) as (a & b & -> & -> & L). exists ((j, w) :: a), b. split; [reflexivity|]. split; [reflexivity|]. unfold mmrange. cbn [filter fst].
    replace (j =? k) with false by lia. exact L.
Qed.
Lemma mm_app {A} k (a b : list (Z * A)) : mmrange k (a ++ b) = mmrange k a ++ mmrange k b.
Proof. unfold mmrange. now rewrite filter_app, map_app. Qed.
Lemma mm_mid {A} k j (v : A) a b : mmrange k (a ++ (j, v) :: b) = mmrange k a ++ (if k =? j then [v] else []) ++ mmrange k b.
Proof. rewrite mm_app. f_equal. unfold mmrange. cbn [filter fst]. rewrite (Z.eqb_sym j k). now destruct (k =? j). Qed.
Lemma F2_len {A B} (R : A -> B -> Prop) l l' : Forall2 R l l' -> length l = length l'.
Proof. induction 1; cbn; congruence. Qed.
(** a tape shows F when under every number there are materials that show what F has there *)
Lemma shows_tape_iff T F : shows_tape T F <-> forall mat, Forall2 shows (mmrange mat (tt_mats T)) (F mat).
Proof.
  split; intros H mat.
  - destruct (H mat) as (A & B & C). destruct (F mat) as [|v vs] eqn:E.
    + unfold tape_number in A. destruct (mmrange mat (tt_mats T)); [constructor|discriminate].
    + destruct C as (l & C & D). unfold tape_material in C. rewrite B in C. injection C as <-. exact D.
  - specialize (H mat). pose proof (F2_len _ _ _ H) as L. unfold tape_material, tape_has, tape_number. rewrite L. destruct (F mat) as [|v vs]; cbn [length].
    + split; [reflexivity|]. split; reflexivity.
    + replace (Z.of_nat (S (length vs)) =? 0) with false by lia. split; [reflexivity|]. split; [reflexivity|]. exists (mmrange mat (tt_mats T)). split; [reflexivity|exact H].
Qed.
Lemma F2_app_inv {A B} (R : A -> B -> Prop) a x b ys : Forall2 R (a ++ x :: b) ys ->
  exists a' y b', ys = a' ++ y :: b' /\ length a' = length a /\ Forall2 R a a' /\ R x y /\ Forall2 R b b'.
Proof.
  intros H. apply Forall2_app_inv_l in H. destruct H as (a' & r & Ha & Hr & ->). inversion Hr as [|? y ? b' Hx Hb]; subst.
  exists a', y, b'. split; [reflexivity|]. split; [symmetry; now apply F2_len in Ha|]. auto.
Qed.
Lemma in_material_sim mat i (e : edit tmat) T F T' x : wft T -> shows_tape T F -> in_material mat i e T = Val (T', x) ->
  (F mat = [] /\ T' = T /\ x = Some EOor)
  \/ (exists a v b m, F mat = a ++ v :: b /\ length a = i /\ wfm m /\ shows m v /\ x = snd (e m)
       /\ (exists p q, tt_mats T = p ++ (mat, m) :: q /\ T' = mkttape (tt_tpid T) (p ++ (mat, fst (e m)) :: q))
       /\ forall v', shows (fst (e m)) v' -> shows_tape T' (set1 F mat (a ++ v' :: b))).
Proof.
  intros W S E. pose proof (proj1 (shows_tape_iff T F) S) as R. unfold in_material in E. destruct (S mat) as (_ & B & C). destruct (F mat) as [|v0 vs] eqn:EF.
  - rewrite C in E. injection E as <- <-. auto.
  - right. destruct C as (l & C & D). rewrite C in E. unfold tape_material in C. rewrite B in C. injection C as <-.
    destruct (nth_error (mmrange mat (tt_mats T)) i) as [m|] eqn:Em; [|discriminate]. destruct (e m) as [m' y] eqn:Ee. injection E as <- <-.
    destruct (mm_split mat i m' _ m Em) as (p & q & Ep & Eu & Li). rewrite Ep, mm_mid, Z.eqb_refl in D. cbn [app] in D.
    destruct (F2_app_inv _ _ _ _ _ D) as (a & v & b & Ev & La & Fa & Sv & Fb). exists a, v, b, m. rewrite Ev. split; [reflexivity|]. split; [congruence|].
    split. { destruct W as [_ W]. rewrite Ep in W. rewrite Forall_forall in W. apply (W (mat, m)). apply in_app_iff. right. now left. }
    split; [exact Sv|]. rewrite Ee. cbn [fst snd]. split; [reflexivity|]. split; [exists p, q; split; [exact Ep|now rewrite Eu]|].
    intros v' Sv'. apply shows_tape_iff. intros k. cbn [tt_mats]. rewrite Eu, mm_mid. unfold set1. destruct (Z.eqb_spec k mat) as [->|N]; cbn [app].
    + apply Forall2_app; [exact Fa|]. constructor; [exact Sv'|exact Fb].
    + specialize (R k). rewrite Ep, mm_mid in R. now replace (k =? mat) with false in R by lia.
Qed.
Lemma clean_all_range {A} (c : edit A) l k : Forall2 (fun a a' => a' = a \/ a' = fst (c a)) (mmrange k l) (mmrange k (fst (clean_all c l))).
Proof.
  assert (Rf : forall l, Forall2 (fun a a' => a' = a \/ a' = fst (c a)) l l) by (intros l0; induction l0; constructor; auto).
  induction l as [|[j a] l IH]; [constructor|]. cbn [clean_all]. destruct (c a) as [a' [e|]] eqn:E.
  - cbn [fst]. unfold mmrange. cbn [filter fst]. destruct (j =? k); cbn [map snd]; [constructor; [right; now rewrite E|apply Rf]|apply Rf].
  - destruct (clean_all c l) as [l' y]. cbn [fst] in *. unfold mmrange in *. cbn [filter fst]. destruct (j =? k); cbn [map snd]; [constructor; [right; now rewrite E|exact IH]|exact IH].
Qed.

(** ** C72 *)
(** one operation *)
Theorem C72_step : forall o T F T' x, made_tape T -> nop_ok o -> shows_tape T F -> nop_run o T = Val (T', x) ->
  exists F', shows_tape T' F' /\ nop_spec o F F' x /\ made_tape T'.
Proof.
  intros o T F T' x M Ho S E. pose proof (made_tape_wf T M) as W. pose proof (proj1 (shows_tape_iff T F) S) as R.
  destruct o as [m|m|mat|mat i o|mat i c|]; cbn [nop_run nop_ok nop_spec] in *.
  - injection E as <- <-. exists (set1 F (tm_mat m) (F (tm_mat m) ++ [view_of m])). split; [|split; [|now apply mt_insert]].
    + apply shows_tape_iff. intros k. cbn [tt_mats tape_insert]. rewrite mmrange_put by apply W. unfold set1. destruct (Z.eqb_spec k (tm_mat m)) as [->|N]; [|apply R].
      apply Forall2_app; [apply R|]. constructor; [apply shows_self|constructor].
    + split; [reflexivity|]. split; [intros k N; unfold set1; now replace (k =? tm_mat m) with false by lia|]. exists (view_of m). split; [apply shows_self|]. unfold set1. now rewrite Z.eqb_refl.
  - injection E as <- <-. exists (set1 F (tm_mat m) [view_of m]). split; [|split; [|now apply mt_replace]].
    + apply shows_tape_iff. intros k. cbn [tt_mats tape_replace tape_insert tape_remove]. rewrite mmrange_put by (apply weak_rem, W). rewrite mmrange_rem. unfold set1.
      destruct (Z.eqb_spec k (tm_mat m)) as [->|N]; [|apply R]. constructor; [apply shows_self|constructor].
    + split; [reflexivity|]. split; [intros k N; unfold set1; now replace (k =? tm_mat m) with false by lia|]. exists (view_of m). split; [apply shows_self|]. unfold set1. now rewrite Z.eqb_refl.
  - injection E as <- <-. exists (set1 F mat []). split; [|split; [|now apply mt_remove]].
    + apply shows_tape_iff. intros k. cbn [tt_mats tape_remove]. rewrite mmrange_rem. unfold set1. destruct (Z.eqb_spec k mat) as [->|N]; [constructor|apply R].
    + split; [reflexivity|]. split; [intros k N; unfold set1; now replace (k =? mat) with false by lia|]. unfold set1. now rewrite Z.eqb_refl.
  - destruct (in_material_sim _ _ _ _ _ _ _ W S E) as [(EF & -> & ->)|(a & v & b & m & EF & La & Wm & Sv & -> & (p & q & Ep & ->) & G)].
    + exists F. split; [exact S|]. split; [|exact M]. split; [intros k _; reflexivity|]. rewrite EF. auto.
    + destruct (mop_sim o m v Wm Sv) as [S1 S2]. exists (set1 F mat (a ++ fst (mop_spec o v) :: b)). split; [now apply G|]. split; [|eapply mt_edit; eauto using medit].
      split; [intros k N; unfold set1; now replace (k =? mat) with false by lia|]. rewrite EF. destruct (a ++ v :: b) eqn:K; [destruct a; discriminate|]. rewrite <- K.
      exists a, v, b. split; [reflexivity|]. split; [exact La|]. split; [unfold set1; now rewrite Z.eqb_refl|exact S2].
  - destruct (in_material_sim _ _ _ _ _ _ _ W S E) as [(EF & -> & ->)|(a & v & b & m & EF & La & Wm & Sv & -> & (p & q & Ep & ->) & G)].
    + exists F. split; [exact S|]. split; [|exact M]. split; [intros k _; reflexivity|]. rewrite EF. auto.
    + exists (set1 F mat (a ++ view_of (fst (part_run c m)) :: b)). split; [apply G, shows_self|]. split; [|eapply mt_edit; eauto; destruct c; constructor].
      split; [intros k N; unfold set1; now replace (k =? mat) with false by lia|]. rewrite EF. destruct (a ++ v :: b) eqn:K; [destruct a; discriminate|]. rewrite <- K.
      exists a, v, b, (view_of (fst (part_run c m))). split; [reflexivity|]. split; [exact La|]. split; [unfold set1; now rewrite Z.eqb_refl|now apply part_sim].
  - injection E as E. assert (ET : T' = fst (tape_clean T)) by now rewrite E. assert (Ex : x = snd (tape_clean T)) by now rewrite E. subst T' x. clear E.
    exists (fun mat => map view_of (mmrange mat (tt_mats (fst (tape_clean T))))). split; [|split; [|now apply mt_clean]].
    + apply shows_tape_iff. intros k. induction (mmrange k (tt_mats (fst (tape_clean T)))); constructor; [apply shows_self|assumption].
    + split.
      * intros k. assert (Q := clean_all_range mat_clean (tt_mats T) k). specialize (R k). unfold tape_clean. destruct (clean_all mat_clean (tt_mats T)) as [l y]. cbn [fst tt_mats] in *.
        revert Q. generalize (mmrange k l). revert R. generalize (F k). generalize (mmrange k (tt_mats T)). clear. intros l1 l2 R l3 Q. revert l3 Q.
        induction R as [|m v l1 l2 Sv R IH]; intros l3 Q; inversion Q as [|? m' ? l3' Hm Q']; subst; cbn [map]; constructor; [|now apply IH].
        apply shows_iff in Sv. destruct Sv as (A & B & _). destruct (mat_clean_shape m) as (A' & B'). unfold same_shape. cbn [view_of v_mat v_has].
        destruct Hm as [-> | ->]; split; intros; rewrite ?A', ?B'; auto.
      * destruct W as [W1 W2]. pose proof (clean_multi (fun m p => look m (fst p) (snd p)) lex mat_clean (tt_mats T) W1) as C.
        assert (Et : tt_mats (fst (tape_clean T)) = fst (clean_all mat_clean (tt_mats T)) /\ snd (tape_clean T) = snd (clean_all mat_clean (tt_mats T)))
          by (unfold tape_clean; destruct (clean_all mat_clean (tt_mats T)); auto). destruct Et as [Et1 Et2]. rewrite Et1, Et2.
        eapply (clean_run_iso _ _ (fun k => k) (fun k => k)); [..|apply C; eapply Forall_impl; [|exact W2]; intros [k m] (_ & Wm); unfold ok_step; cbn [snd] in *; now apply mat_cleaned]; [reflexivity|reflexivity|..].
        -- reflexivity.
        -- intros [[k i] p]. unfold tsec_at, qsec. cbn [fst snd]. specialize (R k). revert i. induction R as [|m v l1 l2 Sv R IH]; intros [|i]; cbn [nth_error]; try reflexivity; [|apply IH].
           apply shows_iff in Sv. destruct Sv as (_ & _ & Sv). unfold msec. now rewrite Sv.
        -- intros [[k i] p]. unfold tsec_at, qsec. cbn [fst snd]. rewrite nth_error_map. now destruct (nth_error (mmrange k _) i).
Qed.
(** which operations are undefined *)
Theorem C72_undefined : forall o T, nop_run o T = Undef <-> beyond o T.
Proof.
  assert (G : forall mat i e T, in_material mat i e T = Undef <-> tape_has T mat = true /\ tape_number T mat <= Z.of_nat i).
  { intros mat i e T. unfold in_material, tape_material. destruct (tape_has T mat); [|split; [discriminate|intros [K _]; discriminate]]. unfold tape_number.
    destruct (nth_error (mmrange mat (tt_mats T)) i) eqn:E.
    - assert (K : nth_error (mmrange mat (tt_mats T)) i <> None) by congruence. apply nth_error_Some in K. destruct (e t). split; [discriminate|lia].
    - apply nth_error_None in E. split; [intros _; split; [reflexivity|lia]|reflexivity]. }
  intros o T. destruct o; cbn [nop_run beyond]; try apply G; split; discriminate || tauto.
Qed.
Theorem C72_histories : forall l T F T' xs, made_tape T -> Forall nop_ok l -> shows_tape T F -> nrun l T = Val (T', xs) ->
  exists F', shows_tape T' F' /\ nhist l F F' xs /\ made_tape T'.
Proof.
  intros l T F T' xs M Ho. revert T F xs M. induction Ho as [|o l Ho _ IH]; intros T F xs M S E; cbn [nrun] in E.
  - injection E as <- <-. exists F. split; [exact S|]. split; [constructor|exact M].
  - destruct (nop_run o T) as [[T1 x]| |] eqn:E1; try discriminate. destruct (nrun l T1) as [[T2 ys]| |] eqn:E2; try discriminate. injection E as <- <-.
    destruct (C72_step o T F T1 x M Ho S E1) as (F1 & S1 & P1 & M1). destruct (IH T1 F1 ys M1 S1 E2) as (F2 & S2 & P2 & M2).
    exists F2. split; [exact S2|]. split; [econstructor; eauto|exact M2].
Qed.
(** the specification leaves no choice *)
Definition same_view (v w : view) : Prop := v_mat v = v_mat w /\ (forall mf, v_has v mf = v_has w mf) /\ forall mf mt, v_sec v mf mt = v_sec w mf mt.
Lemma same_view_refl v : same_view v v.
Proof. repeat split. Qed.
Lemma shows_same m v w : shows m v -> shows m w -> same_view v w.
Proof.
  intros S1 S2. apply shows_iff in S1, S2. destruct S1 as (A & B & C), S2 as (A' & B' & C'). split; [congruence|]. split; intros; [now rewrite <- B, <- B'|now rewrite <- C, <- C'].
Qed.
Lemma clean_run_det {K} (lt : K -> K -> Prop) f f1 f2 x1 x2 : (forall k j, lt k j \/ k = j \/ lt j k) ->
  clean_run lt f f1 x1 -> clean_run lt f f2 x2 -> x1 = x2 /\ forall k, f1 k = f2 k.
Proof.
  intros tri. destruct x1 as [e1|], x2 as [e2|]; cbn.
  - intros (k1 & s1 & E1 & C1 & B1 & U1 & V1) (k2 & s2 & E2 & C2 & B2 & U2 & V2).
    assert (Kk : k1 = k2).
    { destruct (tri k1 k2) as [L|[L|L]]; [|exact L|].
      - specialize (B2 _ _ L E1). congruence.
      - specialize (B1 _ _ L E2). congruence. }
    subst k2. split; [congruence|]. intros k. destruct (tri k k1) as [L|[L|L]].
    + now rewrite U1, U2 by auto.
    + now rewrite U1, U2 by auto.
    + now rewrite V1, V2.
  - intros (k1 & s1 & E1 & C1 & _) (A & _). apply A in E1. congruence.
  - intros (A & _) (k1 & s1 & E1 & C1 & _). apply A in E1. congruence.
  - intros (_ & A) (_ & B). split; [reflexivity|]. intros k. now rewrite A, B.
Qed.
Lemma lex_tri p q : lex p q \/ p = q \/ lex q p.
Proof.
  destruct p as [a b], q as [c d]. unfold lex. cbn [fst snd]. destruct (Z.lt_trichotomy a c) as [L|[<-|L]]; [auto| |auto].
  destruct (Z.lt_trichotomy b d) as [L|[<-|L]]; auto.
Qed.
Lemma lex4_tri p q : lex4 p q \/ p = q \/ lex4 q p.
Proof.
  destruct p as [[a i] u], q as [[c j] w]. unfold lex4. cbn [fst snd]. destruct (Z.lt_trichotomy a c) as [L|[<-|L]]; [auto| |auto].
  destruct (Nat.lt_trichotomy i j) as [L|[<-|L]]; [auto 8| |auto 8]. destruct (lex_tri u w) as [L|[<-|L]]; [left; auto 8|auto|right; right; auto 8].
Qed.
Lemma part_det c v w1 w2 x1 x2 : part_clean c v w1 x1 -> part_clean c v w2 x2 -> x1 = x2 /\ same_view w1 w2.
Proof.
  intros [[A1 B1] C1] [[A2 B2] C2]. unfold same_view. destruct c as [|mf|mf mt].
  - destruct (clean_run_det lex _ _ _ _ _ lex_tri C1 C2) as (E & D). split; [exact E|]. split; [congruence|]. split; [intros; now rewrite B1, B2|]. intros mf mt. exact (D (mf, mt)).
  - destruct C1 as [O1 C1], C2 as [O2 C2]. assert (Q : x1 = x2 /\ forall mt, v_sec w1 mf mt = v_sec w2 mf mt).
    { destruct (v_has v mf).
      - apply (clean_run_det Z.lt _ _ _ _ _ (fun a b => Z.lt_trichotomy a b) C1 C2).
      - destruct C1 as [-> C1], C2 as [-> C2]. split; [reflexivity|]. intros mt. now rewrite C1, C2. }
    destruct Q as [E Q]. split; [exact E|]. split; [congruence|]. split; [intros; now rewrite B1, B2|]. intros k mt.
    destruct (Z.eq_dec k mf) as [->|N]; [apply Q|now rewrite O1, O2].
  - destruct C1 as [O1 C1], C2 as [O2 C2]. assert (Q : x1 = x2 /\ v_sec w1 mf mt = v_sec w2 mf mt).
    { destruct (v_sec v mf mt); destruct C1 as [C1 ->], C2 as [C2 ->]; split; congruence. }
    destruct Q as [E Q]. split; [exact E|]. split; [congruence|]. split; [intros; now rewrite B1, B2|]. intros k j.
    destruct (Z.eq_dec k mf) as [->|N]; [|now rewrite O1, O2 by auto]. destruct (Z.eq_dec j mt) as [->|N]; [exact Q|now rewrite O1, O2 by auto].
Qed.
Lemma F2_refl {A} (R : A -> A -> Prop) l : (forall a, R a a) -> Forall2 R l l.
Proof. intros H. induction l; constructor; auto. Qed.
Lemma app_inj_len {A} (a a' b b' : list A) : length a = length a' -> a ++ b = a' ++ b' -> a = a' /\ b = b'.
Proof.
  revert a'. induction a as [|x a IH]; intros [|y a'] L E; try discriminate L; [auto|]. injection E as -> E. injection L as L. destruct (IH a' L E) as [-> ->]. auto.
Qed.
Theorem C72_determined : forall o F F1 F2 x1 x2, nop_spec o F F1 x1 -> nop_spec o F F2 x2 ->
  x1 = x2 /\ forall mat, Forall2 same_view (F1 mat) (F2 mat).
Proof.
  intros o F F1 F2 x1 x2.
  assert (G : forall mat l1 l2, same_but mat F F1 -> same_but mat F F2 -> F1 mat = l1 -> F2 mat = l2 -> Forall2 same_view l1 l2 -> forall k, Forall2 same_view (F1 k) (F2 k)).
  { intros mat l1 l2 S1 S2 <- <- H k. destruct (Z.eq_dec k mat) as [->|N]; [exact H|]. rewrite S1, S2 by exact N. apply F2_refl, same_view_refl. }
  destruct o as [m|m|mat|mat i o|mat i c|]; cbn [nop_spec].
  - intros (-> & S1 & v & V1 & E1) (-> & S2 & w & V2 & E2). split; [reflexivity|]. eapply G; eauto.
    apply Forall2_app; [apply F2_refl, same_view_refl|]. constructor; [eapply shows_same; eauto|constructor].
  - intros (-> & S1 & v & V1 & E1) (-> & S2 & w & V2 & E2). split; [reflexivity|]. eapply G; eauto. constructor; [eapply shows_same; eauto|constructor].
  - intros (-> & S1 & E1) (-> & S2 & E2). split; [reflexivity|]. eapply G; eauto.
  - intros (S1 & H1) (S2 & H2). destruct (F mat) as [|v0 vs].
    + destruct H1 as [E1 ->], H2 as [E2 ->]. split; [reflexivity|]. eapply G; eauto.
    + destruct H1 as (a & v & b & EF & La & E1 & ->), H2 as (a' & v' & b' & EF' & La' & E2 & ->). rewrite EF in EF'. apply app_inj_len in EF'; [|congruence].
      destruct EF' as [<- K]. injection K as <- <-. split; [reflexivity|]. eapply G; eauto. apply F2_refl, same_view_refl.
  - intros (S1 & H1) (S2 & H2). destruct (F mat) as [|v0 vs].
    + destruct H1 as [E1 ->], H2 as [E2 ->]. split; [reflexivity|]. eapply G; eauto.
    + destruct H1 as (a & v & b & w & EF & La & E1 & P1), H2 as (a' & v' & b' & w' & EF' & La' & E2 & P2). rewrite EF in EF'. apply app_inj_len in EF'; [|congruence].
      destruct EF' as [<- K]. injection K as <- <-. destruct (part_det _ _ _ _ _ _ P1 P2) as [E V]. split; [exact E|]. eapply G; eauto.
      apply Forall2_app; [apply F2_refl, same_view_refl|]. constructor; [exact V|apply F2_refl, same_view_refl].
  - intros (S1 & C1) (S2 & C2). destruct (clean_run_det lex4 _ _ _ _ _ lex4_tri C1 C2) as [E D]. split; [exact E|]. intros mat.
    assert (D' : forall i mf mt, match nth_error (F1 mat) i with Some v => v_sec v mf mt | None => None end = match nth_error (F2 mat) i with Some v => v_sec v mf mt | None => None end).
    { intros i mf mt. exact (D ((mat, i), (mf, mt))). }
    clear D. specialize (S1 mat). specialize (S2 mat). revert D' S1 S2. generalize (F1 mat) (F2 mat) (F mat). clear.
    intros l1 l2 l D S1. revert l2 D. induction S1 as [|v w l l1 [A1 B1] S1 IH]; intros l2 D S2; inversion S2 as [|? w' ? l2' [A2 B2] S2']; subst; constructor.
    + split; [congruence|]. split; [intros; now rewrite B1, B2|]. intros mf mt. exact (D O mf mt).
    + apply IH; [|exact S2']. intros i mf mt. exact (D (Datatypes.S i) mf mt).
Qed.
(** a material found in an edited tape can itself be edited and put into another one: it is again one of the materials of C20, C21 and C70 *)
Theorem C72_materials : forall T, made_tape T -> forall mat l m, tape_material T mat = Val l -> In m l -> made_mat m.
Proof.
  assert (R : forall T mat l m, tape_material T mat = Val l -> In m l -> In (mat, m) (tt_mats T)).
  { intros T mat l m E I. unfold tape_material in E. destruct (tape_has T mat); [|discriminate]. injection E as <-. unfold mmrange in I. apply in_map_iff in I.
    destruct I as ([k m'] & <- & I). apply filter_In in I. cbn [fst snd] in I. destruct I as [I K]. now replace mat with k by lia. }
  assert (Q : forall T, made_tape T -> Forall (fun p => made_mat (snd p)) (tt_mats T)).
  { intros T0. induction 1 as [i|t T s E|m T Hm H IH|m T Hm H IH|mat T H IH|T H IH|T a k m m2 b H IH E Ho].
    - constructor.
    - apply Forall_forall. intros [k m] I. cbn [snd].
      assert (K : exists l, tape_material T k = Val l /\ In m l).
      { unfold tape_material, tape_has, tape_number. assert (J : In m (mmrange k (tt_mats T))).
        { unfold mmrange. apply in_map_iff. exists (k, m). split; [reflexivity|]. apply filter_In. split; [exact I|cbn; lia]. }
        exists (mmrange k (tt_mats T)). split; [|exact J]. destruct (mmrange k (tt_mats T)); [elim J|]. cbn [length]. now replace (Z.of_nat (Datatypes.S (length l)) =? 0) with false by lia. }
      destruct K as (l & K1 & K2). eapply mm_tape; eauto.
    - cbn [tape_insert tt_mats]. now apply Forall_mput.
    - cbn [tape_replace tape_insert tape_remove tt_mats]. apply Forall_mput; [now apply Forall_rem|exact Hm].
    - cbn [tape_remove tt_mats]. now apply Forall_rem.
    - unfold tape_clean. pose proof (clean_all_Forall mat_clean (fun p => made_mat (snd p)) (tt_mats T)) as C. destruct (clean_all mat_clean (tt_mats T)) as [l y]. cbn [fst tt_mats] in *.
      apply C; [|exact IH]. cbn [snd]. intros k x Hx. exact (mm_edit _ _ Hx (me_clean x)).
    - cbn [tt_mats]. rewrite E in IH. apply Forall_app in IH. destruct IH as [I1 I2]. inversion I2; subst. apply Forall_app. split; [exact I1|]. constructor; [|assumption]. cbn [snd] in *.
      eapply mm_edit; eauto. }
  intros T M mat l m E I. specialize (Q T M). rewrite Forall_forall in Q. apply (Q (mat, m)). eauto.
Qed.

(** two materials 125 on a tape; a section is put into the second and cleaned, a material that is not there is asked for, and everything is cleaned: the section 2 of the
    second material cannot be *)
Definition s_good : tsec := mktsec 125 3 1 (lines_text [L_head1; L_body; L_send]).
Definition s_bad : tsec := mktsec 125 3 2 (lines_text [L_head2; L_body; L_send]).
Definition history72 : list nop :=
  [NInsert (mktmat 125 []); NInsert (mktmat 125 []); NEdit 125 1 (PutSection s_good); NEdit 125 1 (InsertSection s_good); NClean 125 1 (TheSection 3 1);
   NClean 125 0 (TheFile 3); NEdit 126 0 (RemoveFile 3); NEdit 125 1 (PutSection s_bad); NCleanAll].
Example C72_example : Forall nop_ok history72 /\ made_tape (mkttape None []) /\ shows_tape (mkttape None []) (fun _ => [])
  /\ exists T m, nrun history72 (mkttape None []) = Val (T, [None; None; None; Some EStd; None; Some EOor; Some EOor; None; Some EStd])
     /\ tape_material T 125 = Val [mktmat 125 []; m] /\ mat_section m 3 1 = Val (fst (sec_clean s_good)) /\ mat_section m 3 2 = Val (fst (sec_clean s_bad))
     /\ fst (sec_clean s_good) <> s_good.
Proof.
  split; [repeat constructor|]. split; [constructor|]. split; [intros mat; repeat split|].
  eexists. eexists. split; [vm_compute; reflexivity|]. split; [vm_compute; reflexivity|]. split; [vm_compute; reflexivity|]. split; [vm_compute; reflexivity|].
  vm_compute. discriminate.
Qed.
