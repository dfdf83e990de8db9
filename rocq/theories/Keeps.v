(** Keeps.v -- readers that do not tell two related texts apart.

    [keeps R m]: on states related by [R] the reader [m] has the same outcome and leaves
    related states. If this holds of the records, it holds of every section. *)
From Verif Require Import Base Disco Records SecKit Sections Tree Typed Classes PropClasses.
From Verif Require Import Sec1 Sec451 Sec9 Sec4 Sec6 Sec33 Sec8 Sec7 Sec2 Sec32 Sec28.
Open Scope Z_scope.

(** the number of lines, counting a last one without newline *)
Fixpoint mu (t : text) : nat := match t with [] => O | a :: t' => if Ascii.eqb a LF then Datatypes.S (mu t') else Nat.max 1 (mu t') end.
Definition keeps (R : st -> st -> Prop) {A} (m : M A) : Prop := forall s s', R s s' ->
  match m s, m s' with
  | Ok a t, Ok a' t' => a = a' /\ R t t' /\ (mu (buf t) <= mu (buf s))%nat
  | Err e t, Err e' t' => e = e' /\ line t = line t'
  | UB, UB => True
  | _, _ => False
  end.
Create HintDb cols discriminated.

Section Keeps.
Variable R : st -> st -> Prop.
Hypothesis R_line : forall s s', R s s' -> line s = line s'.
Notation rl m := (keeps R m).
Hypothesis rl_cont : forall a b c, rl (rd_cont a b c).
Hypothesis rl_text : forall a b c, rl (rd_text a b c).
Hypothesis rl_dir : forall a b c, rl (rd_dir a b c).
Hypothesis rl_sdiv : rl rd_sdiv.
Hypothesis rl_list : forall a b c, rl (rd_list a b c).
Hypothesis rl_tab1 : forall a b c, rl (rd_tab1 a b c).
Hypothesis rl_tab2 : forall a b c, rl (rd_tab2 a b c).
(* [intg]: the INTG records do so, too *)
Variable intg : bool.
Hypothesis rl_intg : intg = true -> forall nd, (2 <= nd <= 6)%nat -> forall a b c, rl (rd_intg nd (intg_cap nd) a b c).

Lemma k_ret {A} (a : A) : rl (ret a).
Proof. intros s s' H. cbn. auto. Qed.
Lemma k_throw {A} e : rl (@throw A e).
Proof. intros s s' H. cbn. split; [reflexivity|exact (R_line _ _ H)]. Qed.
Lemma k_undef {A} : rl (@undef A).
Proof. intros s s' H. exact Logic.I. Qed.
Lemma k_lift {A} (o : out A) : rl (lift o).
Proof. destruct o; [apply k_ret|apply k_throw|apply k_undef]. Qed.
Lemma k_require b : rl (require b).
Proof. destruct b; [apply k_ret|apply k_throw]. Qed.
(** ** The sections *)
Lemma rl_bind {A B} (m : M A) (f : A -> M B) : rl m -> (forall x, rl (f x)) -> rl (bind m f).
Proof.
  intros H K s s' E. unfold bind. specialize (H s s' E). destruct (m s) as [x t|e t|], (m s') as [x' t'|e' t'|]; try contradiction.
  - destruct H as (<- & E' & L). specialize (K x t t' E'). destruct (f x t), (f x t'); try contradiction; intuition lia.
  - exact H.
  - exact Logic.I.
Qed.
Lemma rl_rd_n {A} (m : M A) n : rl m -> rl (rd_n m n).
Proof.
  intros H. induction n as [|n IH]; cbn [rd_n]; [apply k_ret|]. apply rl_bind; [exact H|intros x]. apply rl_bind; [exact IH|intros xs]. apply k_ret.
Qed.
Lemma rl_sequence {C} (rd : Z -> Z -> Z -> M C) mat mf mt n : rl (rd mat mf mt) -> rl (rd_sequence rd mat mf mt n).
Proof. intros H. unfold rd_sequence. apply rl_bind; [apply k_require|intros _]. apply rl_rd_n, H. Qed.
Lemma rl_all {C} (rd : Z -> Z -> Z -> M C) mat mf mt n : rl (rd mat mf mt) -> rl (rd_all rd n mat mf mt).
Proof. apply rl_sequence. Qed.
Lemma rl_while {C} (rd : Z -> Z -> Z -> M C) mat mf mt n : rl (rd mat mf mt) -> rl (rd_while rd n mat mf mt).
Proof. intros H. unfold rd_while. destruct (n <? 0); [apply k_throw|apply rl_rd_n, H]. Qed.
Lemma rl_when {C} (rd : Z -> Z -> Z -> M C) mat mf mt b : rl (rd mat mf mt) -> rl (rd_when rd b mat mf mt).
Proof. intros H. destruct b; [|apply k_ret]. apply rl_bind; [exact H|intros x; apply k_ret]. Qed.
Lemma rl_iseq {C} v (rd : Z -> Z -> Z -> M C) mat mf mt : rl (rd mat mf mt) -> rl (rd_iseq v rd mat mf mt).
Proof. intros H. apply rl_bind; [apply rl_tab2|intros t]. apply rl_bind; [apply rl_sequence, H|intros l]. apply k_lift. Qed.
Lemma rl_iseqw {C} (rd : tab2 -> Z -> Z -> Z -> M C) mat mf mt : (forall t, rl (rd t mat mf mt)) -> rl (rd_iseqw rd mat mf mt).
Proof. intros H. apply rl_bind; [apply rl_tab2|intros t]. apply rl_bind; [apply rl_while, H|intros l]. apply k_lift. Qed.
Lemma rl_nonempty {C} (rd : Z -> Z -> Z -> M C) nk mat mf mt : rl (rd mat mf mt) -> rl (rd_nonempty rd nk mat mf mt).
Proof. intros H. unfold rd_nonempty. apply rl_bind; [apply rl_all, H|intros l]. apply rl_bind; [apply k_require|intros _]. apply k_ret. Qed.
Lemma rl_peek mat mf mt : rl (peek_cont mat mf mt).
Proof.
  intros s s' E. assert (H := rl_cont mat mf mt s s' E). unfold peek_cont. destruct (rd_cont mat mf mt s), (rd_cont mat mf mt s'); try contradiction; try exact H.
  destruct H as (E1 & _). split; [exact E1|]. split; [exact E|apply le_n].
Qed.
Ltac rls u := repeat first
  [ apply k_ret | apply k_throw | apply k_undef | apply k_lift | apply k_require
  | apply rl_cont | apply rl_text | apply rl_dir | apply rl_list | apply rl_tab2 | apply rl_tab1 | apply rl_peek | (apply rl_intg; [assumption|assumption])
  | solve [auto 2 with cols nocore]
  | apply rl_sequence | apply rl_all | apply rl_while | apply rl_when | apply rl_iseq | apply rl_iseqw; intro | apply rl_nonempty | apply rl_rd_n
  | apply rl_bind; [|intro]
  | match goal with |- keeps _ (match ?x with _ => _ end) => destruct x end
  | progress u ].
Tactic Notation "ok" := rls idtac.

(* File 1 *)
Lemma rl_mult lnu a b c : rl (rd_mult lnu a b c). Proof. unfold rd_mult. ok. Qed.
Lemma rl_decay a b c : rl (rd_decay a b c). Proof. unfold rd_decay. ok. Qed.
#[local] Hint Resolve rl_mult rl_decay : cols.
Lemma rl_decay_data l a b c : rl (rd_decay_data l a b c). Proof. unfold rd_decay_data. ok. Qed.
Lemma rl_thermal1 a b c : rl (Sec1.rd_thermal a b c). Proof. unfold Sec1.rd_thermal. ok. Qed.
Lemma rl_component a b c : rl (rd_component a b c). Proof. unfold rd_component. ok. Qed.
#[local] Hint Resolve rl_decay_data rl_thermal1 rl_component : cols.
Lemma rl_tables n a b c : forall r, rl (rd_tables n r a b c). Proof. induction n as [|n IH]; intros r; cbn [rd_tables]; ok. Qed.
#[local] Hint Resolve rl_tables : cols.
Lemma rl_fission_q x y a b c : rl (rd_fission_q x y a b c). Proof. unfold rd_fission_q. ok. Qed.
Lemma rl_photons x y a b c : rl (rd_photons x y a b c). Proof. unfold rd_photons. ok. Qed.
Lemma rl_descr h a b c : rl (rd_descr h a b c). Proof. unfold rd_descr. ok. Qed.
#[local] Hint Resolve rl_fission_q rl_photons rl_descr : cols.
(* Files 9 to 15 *)
Lemma rl_levels x y a b c : rl (rd_levels x y a b c). Proof. unfold rd_levels. ok. Qed.
Lemma rl_total x a b c : rl (rd_total x a b c). Proof. unfold rd_total. ok. Qed.
#[local] Hint Resolve rl_levels rl_total : cols.
Lemma rl_multiplicities x a b c : rl (rd_multiplicities x a b c). Proof. unfold rd_multiplicities. ok. Qed.
Lemma rl_check_LG l : rl (check_LG l). Proof. unfold check_LG. ok. Qed.
#[local] Hint Resolve rl_multiplicities rl_check_LG : cols.
Lemma rl_transitions a b c : rl (rd_transitions a b c). Proof. unfold rd_transitions. ok. Qed.
#[local] Hint Resolve rl_transitions : cols.
Lemma rl_production x y a b c : rl (rd_production x y a b c). Proof. unfold rd_production. ok. Qed.
Lemma rl_p15 a b c : rl (rd_p15 a b c). Proof. unfold rd_p15. ok. Qed.
Lemma rl_iso a b c : rl (rd_iso a b c). Proof. unfold rd_iso. ok. Qed.
Lemma rl_leg a b c : rl (rd_leg a b c). Proof. unfold rd_leg. ok. Qed.
Lemma rl_tabd a b c : rl (rd_tabd a b c). Proof. unfold rd_tabd. ok. Qed.
#[local] Hint Resolve rl_production rl_p15 rl_iso rl_leg rl_tabd : cols.
Lemma rl_photons14 x y z w a b c : rl (rd_photons14 x y z w a b c). Proof. unfold rd_photons14. ok. Qed.
#[local] Hint Resolve rl_photons14 : cols.
Lemma rl_body14 h a b c : rl (rd_body14 h a b c). Proof. unfold rd_body14. ok. Qed.
#[local] Hint Resolve rl_body14 : cols.
(* Files 4 and 5 *)
Lemma rl_mixed4 a b c : rl (rd_mixed4 a b c). Proof. unfold rd_mixed4. ok. Qed.
#[local] Hint Resolve rl_mixed4 : cols.
Lemma rl_dist4 x a b c : rl (rd_dist4 x a b c). Proof. unfold rd_dist4. ok. Qed.
#[local] Hint Resolve rl_dist4 : cols.
Lemma rl_body4 h a b c : rl (rd_body4 h a b c). Proof. unfold rd_body4. ok. Qed.
Lemma rl_two a b c : rl (rd_two a b c). Proof. unfold rd_two. ok. Qed.
#[local] Hint Resolve rl_body4 rl_two : cols.
Lemma rl_dist5 x a b c : rl (rd_dist5 x a b c). Proof. unfold rd_dist5. ok. Qed.
#[local] Hint Resolve rl_dist5 : cols.
Lemma rl_p5 a b c : rl (rd_p5 a b c). Proof. unfold rd_p5. ok. Qed.
#[local] Hint Resolve rl_p5 : cols.
(* Files 6 and 26 *)
Lemma rl_law1_rec x a b c : rl (rd_law1_rec x a b c). Proof. unfold rd_law1_rec. ok. Qed.
Lemma rl_checked x a b c : rl (rd_checked x a b c). Proof. unfold rd_checked. ok. Qed.
#[local] Hint Resolve rl_law1_rec rl_checked : cols.
Lemma rl_law6 x y a b c : rl (rd_law6 x y a b c). Proof. unfold rd_law6. ok. Qed.
#[local] Hint Resolve rl_law6 : cols.
Lemma rl_product6 x a b c : rl (rd_product6 x a b c). Proof. unfold rd_product6. ok. Qed.
#[local] Hint Resolve rl_product6 : cols.
Lemma rl_body6 h a b c : rl (rd_body6 h a b c). Proof. unfold rd_body6. ok. Qed.
Lemma rl_law1_26 a b c : rl (rd_law1_26 a b c). Proof. unfold rd_law1_26. ok. Qed.
#[local] Hint Resolve rl_body6 rl_law1_26 : cols.
Lemma rl_law26 x a b c : rl (rd_law26 x a b c). Proof. unfold rd_law26. ok. Qed.
#[local] Hint Resolve rl_law26 : cols.
Lemma rl_product26 a b c : rl (rd_product26 a b c). Proof. unfold rd_product26. ok. Qed.
#[local] Hint Resolve rl_product26 : cols.
(* Files 31 to 35 and 40 *)
Lemma rl_explicit a b c : rl (rd_explicit a b c). Proof. unfold rd_explicit. ok. Qed.
Lemma rl_derived a b c : rl (rd_derived a b c). Proof. unfold rd_derived. ok. Qed.
#[local] Hint Resolve rl_explicit rl_derived : cols.
Lemma rl_block a b c : rl (rd_block a b c). Proof. unfold rd_block. ok. Qed.
Lemma rl_legblock a b c : rl (rd_legblock a b c). Proof. unfold rd_legblock. ok. Qed.
#[local] Hint Resolve rl_block rl_legblock : cols.
Lemma rl_block34 x a b c : rl (rd_block34 x a b c). Proof. unfold rd_block34. ok. Qed.
Lemma rl_level a b c : rl (rd_level a b c). Proof. unfold rd_level. ok. Qed.
#[local] Hint Resolve rl_block34 rl_level : cols.
(* File 8 *)
Lemma rl_continuous l a b c : rl (rd_continuous l a b c). Proof. unfold rd_continuous. ok. Qed.
#[local] Hint Resolve rl_continuous : cols.
Lemma rl_spectrum8 a b c : rl (rd_spectrum8 a b c). Proof. unfold rd_spectrum8. ok. Qed.
#[local] Hint Resolve rl_spectrum8 : cols.
Lemma rl_decay8 x y z a b c : rl (rd_decay8 x y z a b c). Proof. unfold rd_decay8. ok. Qed.
#[local] Hint Resolve rl_decay8 : cols.
(* File 7 *)
Lemma rl_series a b c : rl (rd_series a b c). Proof. unfold rd_series. ok. Qed.
#[local] Hint Resolve rl_series : cols.
Lemma rl_coherent a b c : rl (rd_coherent a b c). Proof. unfold rd_coherent. ok. Qed.
#[local] Hint Resolve rl_coherent : cols.
Lemma rl_elastic x a b c : rl (rd_elastic x a b c). Proof. unfold rd_elastic. ok. Qed.
Lemma rl_function a b c : rl (rd_function a b c). Proof. unfold rd_function. ok. Qed.
#[local] Hint Resolve rl_elastic rl_function : cols.
Lemma rl_inelastic l a b c : rl (rd_inelastic l a b c). Proof. unfold rd_inelastic. ok. Qed.
Lemma rl_secondary l a b c : rl (rd_secondary l a b c). Proof. induction l as [|x l IH]; cbn [rd_secondary]; ok; exact IH. Qed.
#[local] Hint Resolve rl_inelastic rl_secondary : cols.
Lemma rl_secondaries l a b c : rl (rd_secondaries l a b c). Proof. unfold rd_secondaries. ok. Qed.
#[local] Hint Resolve rl_secondaries : cols.
Lemma rl_thermal x y a b c : rl (Sec7.rd_thermal x y a b c). Proof. unfold Sec7.rd_thermal. ok. Qed.
Lemma rl_elements x a b c : rl (rd_elements x a b c). Proof. unfold rd_elements. ok. Qed.
#[local] Hint Resolve rl_thermal rl_elements : cols.
(* File 2 *)
Lemma rl_152 x y a b c : rl (rd_152 x y a b c). Proof. unfold rd_152. ok. Qed.
Lemma rl_resolved k a b c : rl (rd_resolved k a b c). Proof. unfold rd_resolved. ok. Qed.
Lemma rl_unresolved {A} (rd : Z -> Z -> Z -> M A) a b c : rl (rd a b c) -> rl (rd_unresolved rd a b c). Proof. intros H. unfold rd_unresolved. ok; exact H. Qed.
Lemma rl_jgroup k a b c : rl (rd_jgroup k a b c). Proof. unfold rd_jgroup. ok. Qed.
Lemma rl_width_group a b c : rl (rd_width_group a b c). Proof. unfold rd_width_group. ok. Qed.
Lemma rl_background x a b c : rl (rd_background x a b c). Proof. unfold rd_background. ok. Qed.
#[local] Hint Resolve rl_152 rl_resolved rl_unresolved rl_jgroup rl_width_group rl_background : cols.
Lemma rl_widths a b c : rl (rd_widths a b c). Proof. unfold rd_widths. ok. Qed.
Lemma rl_entry x a b c : rl (rd_entry x a b c). Proof. unfold rd_entry. ok. Qed.
#[local] Hint Resolve rl_widths rl_entry : cols.
Lemma rl_backgrounds x y a b c : rl (rd_backgrounds x y a b c). Proof. unfold rd_backgrounds. ok. Qed.
#[local] Hint Resolve rl_backgrounds : cols.
Lemma rl_group a b c : rl (rd_group a b c). Proof. unfold rd_group. ok. Qed.
#[local] Hint Resolve rl_group : cols.
Lemma rl_rml a b c : rl (rd_rml a b c). Proof. unfold rd_rml. ok. Qed.
Lemma rl_special a b c : rl (rd_special a b c). Proof. unfold rd_special. ok. Qed.
#[local] Hint Resolve rl_rml rl_special : cols.
Lemma rl_params x y z a b c : rl (rd_params x y z a b c). Proof. unfold rd_params. ok. Qed.
Lemma rl_radius x a b c : rl (rd_radius x a b c). Proof. unfold rd_radius. ok. Qed.
#[local] Hint Resolve rl_params rl_radius : cols.
Lemma rl_range x a b c : rl (rd_range x a b c). Proof. unfold rd_range. ok. Qed.
#[local] Hint Resolve rl_range : cols.
Lemma rl_resisotope a b c : rl (rd_resisotope a b c). Proof. unfold rd_resisotope. ok. Qed.
#[local] Hint Resolve rl_resisotope : cols.
Lemma rl_151 x a b c : rl (rd_151 x a b c). Proof. unfold rd_151. ok. Qed.
#[local] Hint Resolve rl_151 : cols.
(* File 32 *)
Lemma rl_dap a b c : rl (rd_dap a b c). Proof. unfold rd_dap. ok. Qed.
Lemma rl_no_dap a b c : rl (rd_no_dap a b c). Proof. unfold rd_no_dap. ok. Qed.
Lemma rl_list_if k a b c : rl (rd_list_if k a b c). Proof. unfold rd_list_if. ok. Qed.
Lemma rl_long a b c : rl (rd_long a b c). Proof. unfold rd_long. ok. Qed.
#[local] Hint Resolve rl_dap rl_no_dap rl_list_if rl_long : cols.
Lemma rl_limited a b c : rl (rd_limited a b c). Proof. unfold rd_limited. ok. Qed.
Lemma rl_short_rml a b c : rl (rd_short_rml a b c). Proof. unfold rd_short_rml. ok. Qed.
Lemma rl_spin32 a b c : rl (rd_spin32 a b c). Proof. unfold rd_spin32. ok. Qed.
#[local] Hint Resolve rl_limited rl_short_rml rl_spin32 : cols.
Lemma rl_general {D U} (rdD : Z -> Z -> Z -> M D) (rdU : Z -> Z -> Z -> M U) a b c : rl (rdD a b c) -> rl (rdU a b c) -> rl (rd_general rdD rdU a b c).
Proof. intros H K. unfold rd_general. ok; assumption. Qed.
Lemma rl_corr a b c : intg = true -> rl (rd_corr a b c). Proof.
  intros G. unfold rd_corr. apply rl_bind; [apply rl_cont|intros x]. destruct (digits_ok (u32 (l1 x))) eqn:D.
  - assert (N : (2 <= Z.to_nat (u32 (l1 x)) <= 6)%nat) by (unfold digits_ok in D; lia). ok.
  - intros s s' H. exact (k_throw (A := corr) EStd s s' H).
Qed.
#[local] Hint Resolve rl_corr : cols.
Lemma rl_compact {D U} (rdD : Z -> Z -> Z -> M D) (rdU : Z -> Z -> Z -> M U) a b c : rl (rdD a b c) -> rl (rdU a b c) -> intg = true -> rl (rd_compact rdD rdU a b c).
Proof. intros H K G. unfold rd_compact. ok; assumption. Qed.
Lemma rl_rml32 a b c : rl (rd_rml32 a b c). Proof. unfold rd_rml32. ok. Qed.
Lemma rl_unres32 a b c : rl (rd_unres32 a b c). Proof. unfold rd_unres32. ok. Qed.
#[local] Hint Resolve rl_general rl_compact rl_rml32 rl_unres32 : cols.
Lemma rl_cparams_of x y z a b c : intg = true -> rl (rd_cparams_of x y z a b c). Proof. intros G. unfold rd_cparams_of. ok; first [apply rl_general|apply rl_compact]; ok. Qed.
#[local] Hint Resolve rl_cparams_of : cols.
Lemma rl_cparams x y a b c : intg = true -> rl (rd_cparams x y a b c). Proof. intros G. unfold rd_cparams. ok. Qed.
Lemma rl_radcov a b c : rl (rd_radcov a b c). Proof. unfold rd_radcov. ok. Qed.
#[local] Hint Resolve rl_cparams rl_radcov : cols.
Lemma rl_cradius x a b c : rl (rd_cradius x a b c). Proof. unfold rd_cradius. ok. Qed.
#[local] Hint Resolve rl_cradius : cols.
Lemma rl_crange a b c : intg = true -> rl (rd_crange a b c). Proof. intros G. unfold rd_crange. ok. Qed.
#[local] Hint Resolve rl_crange : cols.
Lemma rl_cisotope a b c : intg = true -> rl (rd_cisotope a b c). Proof. intros G. unfold rd_cisotope. ok. Qed.
#[local] Hint Resolve rl_cisotope : cols.
Lemma rl_32_151 x a b c : intg = true -> rl (rd_32_151 x a b c). Proof. intros G. unfold rd_32_151. ok. Qed.
#[local] Hint Resolve rl_32_151 : cols.

Lemma rl_k_read c h a b d : (c = K32_151 -> intg = true) -> rl (k_read (skind_of c) h a b d).
Proof. intros G. destruct c; try (specialize (G eq_refl)); cbn; ok. Qed.

Lemma rl_section {B} (k : skind B) h mat : (forall a b d, rl (k_read k h a b d)) -> rl (Sections.rd_section k h mat).
Proof.
  intros H. unfold Sections.rd_section. apply rl_bind.
  - unfold sec_head. apply rl_bind; [apply k_lift|intros za]. do 4 (apply rl_bind; [apply k_require|intros _]). apply k_ret.
  - intros [za awr]. apply rl_bind; [apply H|intros b]. apply rl_bind; [|intros _; apply k_ret].
    unfold rd_SEND. apply rl_bind; [apply rl_sdiv|intros d]. do 2 (apply rl_bind; [apply k_require|intros _]). apply k_require.
Qed.
Lemma rl_lib c h mat : (c = K32_151 -> intg = true) -> rl (Sections.rd_section (skind_of c) h mat).
Proof. intros G. apply rl_section. intros a b d. now apply rl_k_read. Qed.
End Keeps.
