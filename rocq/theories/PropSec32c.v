(** PropSec32c.v -- C56, continued: the line counter; ranges and what the constructors of File 32 accept. *)
From Coq Require Import ZifyBool ZifyNat.
From Verif Require Import Base Disco DiscoProofs Records RecordProofs RecordRT RecordSound Layout RealRound RealProofs Spec Normal LineFacts Sections SecSpec Codec SectionProofs
  SecKit CodecKit PropRecords ExKit Sec9 Sec9Spec Sec9Proofs Sec4Spec Sec6 Sec6Spec Sec6Proofs Sec6Safe Sec33 Sec33Spec Sec33Proofs Sec33Safe PropSec33 Sec8 Sec8Proofs Sec7 Sec2 Sec2Spec Sec2Proofs PropSec2
  Sec32 Sec32Corr Sec32Spec Sec32Proofs Sec32Safe PropSec32.
Open Scope Z_scope.

(** ** the line counter *)
(** the second reader does what the first does, from the same place with another counter; behind an object [a] its counter is ahead
    by [f a] more than before *)
Definition lags {A} (m m' : M A) (f : A -> Z) : Prop := forall b l d,
  match m (mkst b l), m' (mkst b (l + d)) with
  | Ok a s, Ok a' s' => a' = a /\ buf s' = buf s /\ line s' = line s + d + f a
  | Err e s, Err e' s' => e' = e /\ buf s' = buf s
  | UB, UB => True
  | _, _ => False
  end.
Notation even m := (lags m m (fun _ => 0)).
Lemma lags_ret {A} (a : A) f : f a = 0 -> lags (ret a) (ret a) f.
Proof. intros E b l d. unfold ret. cbn. repeat split; lia. Qed.
Lemma lags_throw {A} e f : lags (throw e : M A) (throw e) f.
Proof. intros b l d. split; reflexivity. Qed.
Lemma lags_undef {A} f : lags (undef : M A) undef f.
Proof. intros b l d. exact Logic.I. Qed.
Lemma lags_ext {A} (m m' : M A) f g : (forall a, f a = g a) -> lags m m' f -> lags m m' g.
Proof. intros E H b l d. specialize (H b l d). destruct (m _), (m' _); auto. now rewrite <- E. Qed.
Lemma lags_bind {A B} (m m' : M A) (g g' : A -> M B) f F :
  lags m m' f -> (forall a, lags (g a) (g' a) (fun b => F b - f a)) -> lags (bind m g) (bind m' g') F.
Proof.
  intros H K b l d. specialize (H b l d). unfold bind. destruct (m _) as [a s|e s|], (m' _) as [a' s'|e' s'|]; try contradiction; auto.
  destruct H as (-> & E & L). specialize (K a (buf s) (line s) (d + f a)). destruct s as [b1 k1], s' as [b2 k2]. cbn in *. subst b2 k2.
  replace (k1 + d + f a) with (k1 + (d + f a)) by lia. destruct (g a _) as [x y|x y|], (g' a _) as [x' y'|x' y'|]; try contradiction; auto.
  destruct K as (-> & E1 & L1). repeat split; [assumption|lia].
Qed.
Lemma even_bind {A B} (m : M A) (g : A -> M B) : even m -> (forall a, even (g a)) -> even (bind m g).
Proof. intros H K. eapply lags_bind; [exact H|]. intros a. apply (lags_ext _ _ (fun _ => 0)); [lia|apply K]. Qed.
Lemma even_if {A} (x : bool) (m n : M A) f : lags m m f -> lags n n f -> lags (if x then m else n) (if x then m else n) f.
Proof. now destruct x. Qed.
Lemma even_require x : even (require x).
Proof. destruct x; [now apply lags_ret|apply lags_throw]. Qed.
Lemma lags_lift {A} (o : out A) f : (forall a, o = Val a -> f a = 0) -> lags (lift o) (lift o) f.
Proof. intros E. destruct o; [apply lags_ret; now apply E|apply lags_throw|apply lags_undef]. Qed.
Lemma even_lift {A} (o : out A) : even (lift o).
Proof. now apply lags_lift. Qed.
Lemma even_opt {A} (o : option A) : even (of_opt o).
Proof. destruct o; [now apply lags_ret|apply lags_throw]. Qed.
Lemma even_on_err {A} (m : M A) h :
  (forall e b l l', fst (h e (mkst b l')) = fst (h e (mkst b l)) /\ buf (snd (h e (mkst b l'))) = buf (snd (h e (mkst b l)))) ->
  even m -> even (on_err m h).
Proof.
  intros E H b l d. specialize (H b l d). unfold on_err. destruct (m (mkst b l)) as [a s|e s|], (m (mkst b (l + d))) as [a' s'|e' s'|]; try contradiction; auto.
  destruct H as (-> & K). destruct s as [b1 k1], s' as [b2 k2]. cbn in K. subst b2. specialize (E e b1 k1 k2).
  destruct (h e (mkst b1 k2)), (h e (mkst b1 k1)). exact E.
Qed.
Lemma h_dec_even e b l l' : fst (h_dec e (mkst b l')) = fst (h_dec e (mkst b l)) /\ buf (snd (h_dec e (mkst b l'))) = buf (snd (h_dec e (mkst b l))).
Proof. destruct e; split; reflexivity. Qed.
Lemma h_nodec_even e b l l' : fst (h_nodec e (mkst b l')) = fst (h_nodec e (mkst b l)) /\ buf (snd (h_nodec e (mkst b l'))) = buf (snd (h_nodec e (mkst b l))).
Proof. destruct e; split; reflexivity. Qed.
Lemma h_std_even e b l l' : fst (h_std e (mkst b l')) = fst (h_std e (mkst b l)) /\ buf (snd (h_std e (mkst b l'))) = buf (snd (h_std e (mkst b l))).
Proof. destruct e; split; reflexivity. Qed.
Lemma even_field w : even (rd_field w).
Proof. intros b l d. unfold rd_field. cbn [buf line]. destruct (field w b). repeat split; cbn; lia. Qed.
Lemma even_int w : even (rd_int w).
Proof. apply even_bind; [apply even_field|intros; apply even_opt]. Qed.
Lemma even_real : even rd_real.
Proof. apply even_bind; [apply even_field|intros; apply even_opt]. Qed.
Lemma even_eol : even rd_eol.
Proof. intros b l d. repeat split; cbn; lia. Qed.
Lemma even_inc : even inc_line.
Proof. intros b l d. repeat split; cbn; lia. Qed.
Lemma even_advance n : even (advance n).
Proof. intros b l d. unfold advance. cbn [buf]. destruct (_ <=? _)%nat; [|exact Logic.I]. repeat split; cbn; lia. Qed.
Lemma even_tail : even rd_tail.
Proof. repeat (apply even_bind; [apply even_int|intros]). apply even_bind; [apply even_eol|intros]. apply even_bind; [apply even_inc|intros]. now apply lags_ret. Qed.
Lemma even_verify mat mf mt : even (verify_tail mat mf mt).
Proof.
  apply even_bind; [apply even_tail|]. intros [[m f] t].
  apply even_bind; [apply even_if; [now apply lags_ret|apply lags_throw]|intros]. apply even_bind; [apply even_if; [now apply lags_ret|apply lags_throw]|intros].
  apply even_if; [now apply lags_ret|apply lags_throw].
Qed.
Lemma even_base : even rd_base.
Proof. repeat (apply even_bind; [apply even_real || apply even_int|intros]). now apply lags_ret. Qed.
Lemma even_cont mat mf mt : even (rd_cont mat mf mt).
Proof. apply even_on_err; [apply h_dec_even|]. apply even_bind; [apply even_base|intros]. apply even_bind; [apply even_verify|intros]. now apply lags_ret. Qed.
Lemma lags_n {A} (m m' : M A) f n : lags m m' f -> lags (rd_n m n) (rd_n m' n) (fun l => zsum (map f l)).
Proof.
  intros H. induction n as [|n IH]; [now apply lags_ret|]. cbn [rd_n]. eapply lags_bind; [exact H|]. intros a. eapply lags_bind; [exact IH|]. intros l. apply lags_ret. unfold zsum. cbn [map fold_right]. lia.
Qed.
Lemma even_n {A} (m : M A) n : even m -> even (rd_n m n).
Proof. intros H. eapply lags_ext; [|apply lags_n, H]. intros l. unfold zsum. induction l; [reflexivity|]. cbn [map fold_right] in *. lia. Qed.
Lemma even_unzip {A} (rd : M A) z k mat mf mt n : even rd -> even (unzip rd z k mat mf mt n).
Proof.
  intros H. unfold unzip. apply even_bind.
  - induction (n / k)%nat as [|q IH]; [now apply lags_ret|]. cbn [rd_zlines]. apply even_bind.
    + unfold rd_zline. apply even_bind; [now apply even_n|intros]. apply even_bind; [apply even_verify|intros]. now apply lags_ret.
    + intros. apply even_bind; [exact IH|intros]. now apply lags_ret.
  - intros xs. apply even_if; [now apply lags_ret|]. apply even_bind; [|intros; now apply lags_ret].
    unfold rd_zpartial. apply even_bind; [now apply even_n|intros]. apply even_bind; [|intros; apply even_bind; [apply even_verify|intros]; now apply lags_ret].
    induction (k - n mod k)%nat as [|q IH]; [now apply lags_ret|]. cbn [rd_leftover]. apply even_bind; [exact H|intros]. apply even_bind; [apply even_require|intros]. exact IH.
Qed.
Lemma even_list mat mf mt : even (rd_list mat mf mt).
Proof.
  apply even_on_err; [apply h_nodec_even|]. apply even_bind.
  - apply even_on_err; [apply h_std_even|]. apply even_bind; [apply even_base|intros]. apply even_bind; [apply even_verify|intros]. apply even_bind; [apply even_require|intros]. now apply lags_ret.
  - intros. apply even_bind; [apply even_unzip, even_real|intros]. now apply lags_ret.
Qed.
Lemma even_intg nd cap mat mf mt : even (rd_intg nd cap mat mf mt).
Proof.
  apply even_on_err; [apply h_nodec_even|]. apply even_bind; [apply even_int|intros]. apply even_bind; [apply even_int|intros]. apply even_bind; [apply even_advance|intros].
  apply even_bind; [apply even_n, even_int|intros]. apply even_bind; [apply even_advance|intros]. apply even_bind; [apply even_lift|intros]. apply even_bind; [apply even_verify|intros].
  now apply lags_ret.
Qed.
Lemma even_checked chk mat mf mt : even (rd_checked chk mat mf mt).
Proof. apply even_bind; [apply even_list|intros]. apply even_bind; [apply even_lift|intros]. now apply lags_ret. Qed.
Lemma even_list_if chk mat mf mt : even (rd_list_if chk mat mf mt).
Proof. apply even_bind; [apply even_list|intros]. apply even_bind; [apply even_require|intros]. now apply lags_ret. Qed.
Lemma lags_all {A} (rd rd' : Z -> Z -> Z -> M A) f n mat mf mt : lags (rd mat mf mt) (rd' mat mf mt) f -> lags (rd_all rd n mat mf mt) (rd_all rd' n mat mf mt) (fun l => zsum (map f l)).
Proof.
  intros H. unfold rd_all, rd_sequence. eapply lags_bind; [apply even_require|]. intros u. eapply lags_ext; [|apply lags_n, H]. intros l. cbv beta. lia.
Qed.
Lemma even_all {A} (rd : Z -> Z -> Z -> M A) n mat mf mt : even (rd mat mf mt) -> even (rd_all rd n mat mf mt).
Proof. intros H. eapply lags_ext; [|apply lags_all, H]. intros l. unfold zsum. induction l; [reflexivity|]. cbn [map fold_right] in *. lia. Qed.
Lemma even_when {A} (rd : Z -> Z -> Z -> M A) x mat mf mt : even (rd mat mf mt) -> even (rd_when rd x mat mf mt).
Proof. intros H. apply even_if; [|now apply lags_ret]. apply even_bind; [exact H|intros]. now apply lags_ret. Qed.
Lemma even_dap mat mf mt : even (rd_dap mat mf mt).
Proof. apply even_bind; [apply even_cont|intros]. now apply lags_ret. Qed.
Lemma even_limited mat mf mt : even (rd_limited mat mf mt).
Proof.
  apply even_bind; [apply even_cont|intros]. apply even_bind; [apply even_when, even_dap|intros]. apply even_bind; [apply even_all, even_checked|intros]. apply even_lift.
Qed.
Lemma even_explicit mat mf mt : even (rd_explicit mat mf mt).
Proof. apply even_bind; [apply even_list|intros]. apply even_lift. Qed.
Lemma even_short_rml mat mf mt : even (rd_short_rml mat mf mt).
Proof.
  apply even_bind; [apply even_cont|intros]. apply even_bind; [apply even_all, even_list_if|intros]. apply even_bind; [apply even_checked|intros]. now apply lags_ret.
Qed.
Lemma even_general {D S} (rdD : Z -> Z -> Z -> M D) (rdS : Z -> Z -> Z -> M S) mat mf mt : even (rdD mat mf mt) -> even (rdS mat mf mt) -> even (rd_general rdD rdS mat mf mt).
Proof.
  intros H K. apply even_bind; [apply even_cont|intros]. apply even_bind; [now apply even_when|intros]. apply even_bind; [apply even_cont|intros]. apply even_bind; [now apply even_all|intros].
  apply even_bind; [apply even_all; apply even_bind; [apply even_list|intros; apply even_lift]|intros]. apply even_lift.
Qed.
Lemma even_rml32 mat mf mt : even (rd_rml32 mat mf mt).
Proof.
  apply even_bind; [apply even_list_if|intros]. apply even_bind; [|intros; apply even_lift]. apply even_all. apply even_bind; [apply even_list_if|intros]. apply even_bind; [apply even_list_if|intros].
  now apply lags_ret.
Qed.
Lemma even_corr mat mf mt : even (rd_corr mat mf mt).
Proof.
  apply even_bind; [apply even_cont|intros]. apply even_bind; [apply even_require|intros]. apply even_bind; [apply even_n, even_intg|intros]. apply even_lift.
Qed.
Lemma even_compact {D U} (rdD : Z -> Z -> Z -> M D) (rdU : Z -> Z -> Z -> M U) mat mf mt : even (rdD mat mf mt) -> even (rdU mat mf mt) -> even (rd_compact rdD rdU mat mf mt).
Proof.
  intros H K. apply even_bind; [apply even_cont|intros]. apply even_bind; [now apply even_when|intros]. apply even_bind; [exact K|intros]. apply even_bind; [apply even_corr|intros].
  now apply lags_ret.
Qed.
Lemma even_unres32 mat mf mt : even (rd_unres32 mat mf mt).
Proof.
  apply even_bind; [apply even_cont|intros]. apply even_bind; [apply even_all, even_checked|intros]. apply even_bind; [apply even_checked|intros]. now apply lags_ret.
Qed.
Lemma even_cparams_of lru lrf lcomp mat mf mt : even (rd_cparams_of lru lrf lcomp mat mf mt).
Proof.
  unfold rd_cparams_of.
  repeat (apply even_if); try apply lags_throw; (apply even_bind; [|intros; now apply lags_ret]);
    first [apply even_limited|apply even_unres32|apply even_general|apply even_compact];
    first [apply even_dap|apply even_list|apply even_checked|apply even_short_rml|apply even_rml32|apply lags_throw].
Qed.
Lemma lags_cparams lru lrf mat mf mt : lags (rd_cparams lru lrf mat mf mt) (rd_cparams_as_is lru lrf mat mf mt) (fun _ => 1).
Proof.
  eapply (lags_bind _ _ _ _ (fun _ => 0)).
  - intros b l d. unfold peek_cont. pose proof (even_cont mat mf mt b l d) as H. destruct (rd_cont mat mf mt (mkst b l)) as [c s|e s|], (rd_cont mat mf mt (mkst b (l + d))) as [c' s'|e' s'|]; try contradiction; auto.
    destruct H as (-> & _). repeat split; cbn; lia.
  - intros c b l d. unfold bump, bind. cbn [buf line]. pose proof (even_cparams_of lru lrf (i32 (l2 c)) mat mf mt b l (d + 1)) as H.
    replace (l + d + 1) with (l + (d + 1)) by lia.
    destruct (rd_cparams_of lru lrf (i32 (l2 c)) mat mf mt (mkst b l)) as [x s|e s|], (rd_cparams_of lru lrf (i32 (l2 c)) mat mf mt (mkst b (l + (d + 1)))) as [x' s'|e' s'|]; try contradiction; auto.
    destruct H as (-> & E & L). repeat split; [assumption|lia].
Qed.
Lemma even_cradius nro mat mf mt : even (rd_cradius nro mat mf mt).
Proof.
  apply even_if; [now apply lags_ret|]. apply even_if; [|apply lags_throw]. apply even_bind; [|intros; now apply lags_ret].
  apply even_bind; [apply even_cont|intros]. apply even_all, even_explicit.
Qed.
Lemma lags_crange mat mf mt : lags (rd_crange mat mf mt) (rd_crange_as_is mat mf mt) (fun _ => 1).
Proof.
  eapply lags_bind; [apply even_cont|]. intros c. eapply lags_bind; [apply even_cradius|]. intros o. eapply lags_bind; [apply lags_cparams|]. intros p.
  apply lags_lift. intros. lia.
Qed.
(** the number of ranges of an isotope *)
Definition ranges_in (x : cisotope) : Z := len (ci_ranges x).
Lemma lags_cisotope mat mf mt : lags (rd_cisotope mat mf mt) (rd_cisotope_as_is mat mf mt) ranges_in.
Proof.
  eapply lags_bind; [apply even_cont|]. intros c. eapply lags_bind; [apply lags_all, lags_crange|]. intros rs. apply lags_ret. unfold ranges_in. cbn [ci_ranges].
  assert (zsum (map (fun _ : crange => 1) rs) = len rs) by (clear; unfold len, zsum; induction rs; [reflexivity|]; cbn [map fold_right length] in *; lia). lia.
Qed.
(** Reading File 32 gives what the theorems about the section say and stops in the same place, with or without counting lines twice;
    the counter of the library is ahead by one for every resonance range that was read *)
Theorem C56_line_counter n mat mf mt s :
  match rd_32_151 n mat mf mt s, rd_32_151_as_is n mat mf mt s with
  | Ok l s1, Ok l' s2 => l' = l /\ buf s2 = buf s1 /\ line s2 = line s1 + zsum (map ranges_in l)
  | Err e s1, Err e' s2 => e' = e /\ buf s2 = buf s1
  | UB, UB => True
  | _, _ => False
  end.
Proof.
  assert (H : lags (rd_32_151 n mat mf mt) (rd_32_151_as_is n mat mf mt) (fun l => zsum (map ranges_in l))).
  { eapply lags_bind; [apply lags_all, lags_cisotope|]. intros l. apply lags_lift. intros a E. unfold make_cisotopes, obind in E. destruct (at_least_one l); try discriminate E.
    assert (a = l) by congruence. subst a. lia. }
  specialize (H (buf s) (line s) 0). replace (line s + 0) with (line s) in H by lia. destruct s as [b l]. cbn [buf line] in H.
  destruct (rd_32_151 n mat mf mt (mkst b l)) as [x s1|e s1|], (rd_32_151_as_is n mat mf mt (mkst b l)) as [x' s2|e' s2|]; auto.
  destruct H as (-> & E & L). repeat split; [assumption|lia].
Qed.

(** the counter is indeed ahead: two ranges, two lines too many *)
Definition x32_two := [mkcisotope r_one r_one false [mkcrange r_tiny r_one 1 (Unresolved32 x32_unres) None; mkcrange r_one r_pi 0 (Unresolved32 x32_unres) None]].
Example C56_line_counter_example :
  (exists s, rd_32_151 1 27 32 151 (mkst (pr_all pr_cisotope x32_two 27 32 151) 0) = Ok x32_two s /\ buf s = [] /\ line s = nc_all nc_cisotope x32_two)
  /\ exists s, rd_32_151_as_is 1 27 32 151 (mkst (pr_all pr_cisotope x32_two 27 32 151) 0) = Ok x32_two s /\ buf s = [] /\ line s = nc_all nc_cisotope x32_two + 2.
Proof. split; eexists; (split; [vm_compute; reflexivity|split; vm_compute; reflexivity]). Qed.

(** ** ranges *)
(** a resonance range is made exactly from a legal NAPS, and with covariances of the scattering radius only if the formalism is not the
    R-matrix limited one *)
Definition is_rml (p : cparams) : Prop := match p with GeneralRML _ | CompactRML _ => True | _ => False end.
Theorem C56_range el eh naps p o : 
  (forall x, make_crange el eh naps p o = Val x -> x = mkcrange el eh naps p o)
  /\ ((exists x, make_crange el eh naps p o = Val x) <-> match o with None => naps = 0 \/ naps = 1 | Some _ => (naps = 0 \/ naps = 1 \/ naps = 2) /\ ~ is_rml p end)
  /\ (make_crange el eh naps p o = Throw EStd <-> ~ exists x, make_crange el eh naps p o = Val x).
Proof.
  unfold make_crange. split; [intros x; destruct (crange_ok _ _ _); congruence|]. split.
  - assert (K : crange_ok naps p o = true <-> match o with None => naps = 0 \/ naps = 1 | Some _ => (naps = 0 \/ naps = 1 \/ naps = 2) /\ ~ is_rml p end).
    { unfold crange_ok. destruct o as [l|]; [|lia]. destruct p; cbn [c_LRU c_LRF is_rml]; cbn; lia. }
    rewrite <- K. destruct (crange_ok naps p o); split; intros H; try congruence; [eexists; reflexivity|destruct H; discriminate].
  - destruct (crange_ok naps p o); split; intros H; try congruence; [exfalso; apply H; eexists; reflexivity|intros [x E]; discriminate].
Qed.
(** the uncertainty of the scattering radius of an R-matrix limited range: accepted and printed, never read *)
Theorem C56_rml_radius_uncertainty_refuted :
  (exists x, make_general r_one r_one r_pi (Some xtwo) 0 [mkshort_rml [xtwo] x32_triangle] [] = Val x
     /\ exists s, rd_cparams 1 7 27 32 151 (mkst (pr_cparams (GeneralRML x) 27 32 151) 0) = Err EStd s)
  /\ (forall mat mf mt s c s1, rd_cont mat mf mt s = Ok c s1 -> n2 c <> 0 -> rd_general rd_no_dap rd_short_rml mat mf mt s = Err EStd s1 /\ rd_compact rd_no_dap rd_rml32 mat mf mt s = Err EStd s1).
Proof.
  split.
  - eexists. split; [reflexivity|]. eexists. vm_compute. reflexivity.
  - intros mat mf mt s c s1 E N. unfold rd_general, rd_compact, bind. rewrite E. unfold rd_when. assert (z2b (n2 c) = true) by (unfold z2b; lia). rewrite H. split; reflexivity.
Qed.
(** unresolved ranges have LRF = 1; any LRF is accepted, and it is printed as 1 *)
Theorem C56_unresolved_formalism_refuted lrf lrf' mat mf mt s : rd_cparams 2 lrf mat mf mt s = rd_cparams 2 lrf' mat mf mt s
  /\ forall x s', rd_cparams 2 lrf mat mf mt s = Ok x s' -> c_LRU x = 2 /\ c_LRF x = 1.
Proof.
  split; [reflexivity|]. intros x s' E. unfold rd_cparams, bind in E. destruct (peek_cont _ _ _ _) as [c s1|e s1|] eqn:P; try discriminate E.
  cbn [rd_cparams_of] in E. change (rd_cparams_of 2 lrf (i32 (l2 c)) mat mf mt) with (y <- rd_unres32 mat mf mt ;; ret (Unresolved32 y)) in E. unfold bind in E.
  destruct (rd_unres32 mat mf mt s1) as [y s2|e s2|]; try discriminate E. assert (x = Unresolved32 y) by (unfold ret in E; congruence). subst x. split; reflexivity.
Qed.
(** a section made of resonance ranges holds one isotope with all of them, of abundance 1 *)
Theorem C56_from_ranges za lfw rs : exists x, make_32_ranges za lfw rs = Val [x] /\ ci_ranges x = rs /\ ci_zai x = of_int za /\ ci_abn x = of_int 1 /\ ci_lfw x = lfw.
Proof. eexists. split; [reflexivity|]. repeat split. Qed.
