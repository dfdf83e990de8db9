(** RoundProofs.v -- the rounded section is representable, consistent and prints the same. *)
From Coq Require Import QArith Lqa ZifyBool ZifyNat.
From Verif Require Import Base Disco DiscoProofs Records RecordProofs RecordRT RealRound RealProofs Spec Normal Sections SecSpec Typed Classes Sec1 Sec1Spec Sec451 Sec451Spec SecKit Sec9 Sec9Spec Sec4 Sec4Spec Sec6 Sec6Spec Sec33 Sec33Spec Sec8 Sec8Spec Sec2 Sec2Spec Sec32 Sec32Spec Sec28 Sec28Proofs Sec7 Sec7Spec Rounded PropClasses.
Open Scope Z_scope.

(** ** numbers *)
Lemma om x : ordinary x -> moderate x.
Proof. intros [H|[H1 H2]]; [now left|right]. split; [exact H1|lia]. Qed.

Lemma bp_o_lo : (bp 10 (-299) <= bp 2 (-984))%Q. Proof. apply Qle_bool_iff. vm_compute. reflexivity. Qed.
Lemma bp_o_hi : (bp 2 989 <= bp 10 299)%Q. Proof. apply Qle_bool_iff. vm_compute. reflexivity. Qed.

Lemma ordinary_bounds x : ordinary x -> rman x <> 0 -> (bp 10 (-299) <= absQ x /\ absQ x <= bp 10 299)%Q.
Proof.
  intros [[H _]|[[H1 H2] [H3 H4]]] N; [congruence|].
  assert (A1 : (bp 2 52 <= inject_Z (rman x))%Q).
  { rewrite bp_int by lia. apply ile. exact H1. }
  assert (A2 : (inject_Z (rman x) <= bp 2 53)%Q).
  { rewrite bp_int by lia. apply ile. lia. }
  assert (B1 : (bp 2 (-1036) <= bp 2 (rexp x))%Q) by (apply bp_le; lia).
  assert (B2 : (bp 2 (rexp x) <= bp 2 936)%Q) by (apply bp_le; lia).
  assert (P1 := bp_pos 2 52 ltac:(lia)). assert (P2 := bp_pos 2 (-1036) ltac:(lia)).
  assert (P3 := bp_pos 2 (rexp x) ltac:(lia)). assert (P4 := bp_pos 2 53 ltac:(lia)).
  unfold absQ. split.
  - eapply Qle_trans; [exact bp_o_lo|]. change (-984) with (52 + -1036). rewrite bp_plus by lia.
    eapply Qle_trans; [apply Qmult_le_compat_r; [exact A1|lra]|]. 
    rewrite (Qmult_comm (inject_Z _)), (Qmult_comm (inject_Z _)). apply Qmult_le_compat_r; lra.
  - eapply Qle_trans; [|exact bp_o_hi]. change 989 with (53 + 936). rewrite bp_plus by lia.
    eapply Qle_trans; [apply Qmult_le_compat_r; [exact A2|lra]|].
    rewrite (Qmult_comm (bp 2 53)), (Qmult_comm (bp 2 53)). apply Qmult_le_compat_r; lra.
Qed.

Lemma ordinary_endf x : ordinary x -> endf_real (renorm x).
Proof.
  intros Ho. assert (Hm := om x Ho). destruct (Z.eq_dec (rman x) 0) as [H0|H0].
  - assert (rexp x = 0).
    { destruct Hm as [[_ H]|[[H _] _]]; auto. assert (0 < 2 ^ 52) by (apply Z.pow_pos_nonneg; lia). lia. }
    destruct (renorm_zero x H0 H) as [E _]. rewrite E. now left.
  - destruct (write_shape x Hm H0) as (E & D & W & Zd & HE & L1 & L2 & Hz).
    destruct (ordinary_bounds x Ho H0) as [B1 B2].
    assert (Pm : 0 < rman x).
    { destruct Hm as [[H _]|[[H _] _]]; [congruence|]. assert (0 < 2 ^ 52) by (apply Z.pow_pos_nonneg; lia). lia. }
    assert (B : (bp 10 (-299) <= decQ E D /\ decQ E D <= bp 10 299)%Q).
    { destruct Hz as [[_ Hz]|[(_ & _ & Hz)|(_ & _ & Hz)]]; rewrite Hz; split; try (apply r10_ge_pow; auto; lia); apply r10_le_pow; auto; lia. }
    destruct (dec_survives (rneg x) E D Zd HE L1 L2) as (y & Dy & Wy & Ky & _).
    assert (R : read_real (write_real x) = Some y).
    { rewrite W, read_fmt; [exact Dy|]. assert (P := zdec_pos E D Zd). destruct Zd. lia. }
    assert (S := renorm_sign x Hm). unfold renorm in *. rewrite R in *.
    right. exists D, E. split; [exact Zd|]. split; [|rewrite S; exact Dy].
    assert (Zr := zone_range E). destruct (dec_exp (zone E) D E ltac:(lia) Zd) as [F1 F2].
    fold (decQ E D) in F1, F2.
    assert (-299 < E + 1) by (apply (bp_lt_inv 10); [lia|lra]).
    assert (E <= 299). { destruct (Z.le_gt_cases E 299); auto. assert (bp 10 299 < bp 10 E)%Q by (apply bp_lt; lia). lra. }
    lia.
Qed.

Lemma renorm_le x y : ordinary x -> ordinary y -> real_le x y -> real_le (renorm x) (renorm y).
Proof. intros Hx Hy H. apply rle_spec. apply renorm_mono; [now apply om|now apply om|]. now apply rle_spec. Qed.
Lemma renorm_same x y : ordinary x -> ordinary y -> same_real x y -> same_real (renorm x) (renorm y).
Proof. intros Hx Hy [H1 H2]. split; now apply renorm_le. Qed.
Lemma ordinary_zero : ordinary rzero. Proof. left. auto. Qed.
Lemma renorm_rzero : renorm rzero = rzero. Proof. reflexivity. Qed.
Lemma absQ_zero x : (absQ x == 0)%Q -> rman x = 0.
Proof.
  unfold absQ. intros H. assert (P := bp_pos 2 (rexp x) ltac:(lia)).
  destruct (Qmult_integral _ _ H) as [K|K]; [|rewrite K in P; lra].
  unfold Qeq, inject_Z in K. cbn in K. lia.
Qed.
Lemma valQ_zero : (valQ rzero == 0)%Q. Proof. reflexivity. Qed.
Lemma same_zero x : 0 <= rman x -> (same_real x rzero <-> rman x = 0).
Proof.
  intros Hn. assert (A := absQ_nonneg x Hn). assert (V := valQ_sign x). assert (V0 := valQ_zero). split.
  - intros [H1 H2]. apply absQ_zero. unfold real_le in *. rewrite V, V0 in H1. rewrite V, V0 in H2. destruct (rneg x); lra.
  - intros H. assert (A0 : (absQ x == 0)%Q) by (unfold absQ; rewrite H; change (inject_Z 0) with 0%Q; ring).
    unfold same_real, real_le. rewrite V, V0. destruct (rneg x); lra.
Qed.
Lemma ordinary_man x : ordinary x -> 0 <= rman x.
Proof. intros [[H _]|[[H _] _]]; [lia|]. assert (0 < 2 ^ 52) by (apply Z.pow_pos_nonneg; lia). lia. Qed.
Lemma renorm_man x : ordinary x -> 0 <= rman (renorm x).
Proof. intros H. destruct (renorm_ok x (om x H)) as (R & _ & _). eapply read_real_man. exact R. Qed.
Lemma renorm_zero_iff x : ordinary x -> (same_real (renorm x) rzero <-> same_real x rzero).
Proof.
  intros H. rewrite !same_zero by (first [now apply ordinary_man | now apply renorm_man]). split; intros K.
  - destruct (Z.eq_dec (rman x) 0) as [|N]; auto.
    destruct (renorm_abs x (om x H) N) as (E & D & a & b & _ & _ & _ & _ & _ & _ & P & _). lia.
  - destruct H as [[H1 H2]|[[H1 _] _]].
    + destruct (renorm_zero x H1 H2) as [-> _]. exact H1.
    + assert (0 < 2 ^ 52) by (apply Z.pow_pos_nonneg; lia). lia.
Qed.

Lemma ascending_renorm l : Forall ordinary l -> ascending real_le l -> ascending real_le (map renorm l).
Proof.
  intros F H. apply sorted_R. apply sorted_renorm; [|now apply sorted_R]. eapply Forall_impl; [|exact F]. exact om.
Qed.
Lemma Forall_ordinary l : Forall ordinary l -> Forall endf_real (map renorm l).
Proof. intros H. apply Forall_map. eapply Forall_impl; [|exact H]. exact ordinary_endf. Qed.
Lemma write_rn x : ordinary x -> write_real (renorm x) = write_real x.
Proof. intros H. apply write_renorm. now apply om. Qed.

(** ** what has to be shown for a component *)
Record rounds {A} (md rep inv : A -> Prop) (rn : A -> A) (pr : A -> Z -> Z -> Z -> text) (nc : A -> Z) : Prop := mkrounds
  { rs_rep : forall x, md x -> rep (rn x);
    rs_inv : forall x, md x -> inv x -> inv (rn x);
    rs_pr : forall x mat mf mt, md x -> pr (rn x) mat mf mt = pr x mat mf mt;
    rs_nc : forall x, nc (rn x) = nc x }.
Arguments rs_rep {A md rep inv rn pr nc}. Arguments rs_inv {A md rep inv rn pr nc}.
Arguments rs_pr {A md rep inv rn pr nc}. Arguments rs_nc {A md rep inv rn pr nc}.

Lemma len_map {A B} (f : A -> B) l : len (map f l) = len l.
Proof. unfold len. now rewrite map_length. Qed.
Lemma isize_map {A B} (f : A -> B) l : isize (map f l) = isize l.
Proof. unfold isize. now rewrite map_length. Qed.

(** ** records *)
Lemma rn_cont_rep c : mod_cont c -> endf_cont (renorm_cont c).
Proof. intros (H1 & H2 & H3). split; [now apply ordinary_endf|]. split; [now apply ordinary_endf|exact H3]. Qed.
Lemma rn_cont_pr c mat mf mt : ordinary (c1 c) -> ordinary (c2 c) -> pr_cont (renorm_cont c) mat mf mt = pr_cont c mat mf mt.
Proof. intros H1 H2. unfold pr_cont, pr_base, renorm_cont. cbn [c1 c2 l1 l2 n1 n2]. now rewrite !write_rn. Qed.

Lemma mod_list_moderate l : mod_list l -> moderate_list l.
Proof.
  intros (H1 & H2 & H3 & H4 & H5 & H6 & H7). unfold moderate_list.
  split; [now apply om|]. split; [now apply om|]. repeat (split; [assumption|]).
  eapply Forall_impl; [|exact H7]. exact om.
Qed.
Lemma rn_list_rep l : mod_list l -> endf_list (renorm_list l).
Proof.
  intros (H1 & H2 & H3 & H4 & H5 & H6 & H7). unfold endf_list, renorm_list. cbn [lC1 lC2 lL1 lL2 lN2 lB]. rewrite map_length.
  split; [now apply ordinary_endf|]. split; [now apply ordinary_endf|]. repeat (split; [assumption|]). now apply Forall_ordinary.
Qed.
Lemma rn_list_pr l mat mf mt : mod_list l -> pr_list (renorm_list l) mat mf mt = pr_list l mat mf mt.
Proof. intros H. now apply renorm_list_ok, mod_list_moderate. Qed.
Lemma rn_list_nc l : nc_list (renorm_list l) = nc_list l.
Proof. unfold nc_list, npl, renorm_list. cbn [lB]. now rewrite map_length. Qed.
Lemma rounds_list (inv : listr -> Prop) : (forall l, mod_list l -> inv l -> inv (renorm_list l)) ->
  rounds mod_list endf_list inv renorm_list pr_list nc_list.
Proof. intros H. split; [exact rn_list_rep|exact H|intros; now apply rn_list_pr|exact rn_list_nc]. Qed.

Lemma rn_tab2_rep t : mod_tab2 t -> rep_tab2 (renorm_tab2 t).
Proof.
  intros (H1 & H2 & H3). unfold rep_tab2, renorm_tab2. cbn [tC1 tC2 tL1 tL2 tbnd tint].
  split; [now apply ordinary_endf|]. split; [now apply ordinary_endf|exact H3].
Qed.
Lemma rn_tab2_pr t mat mf mt : mod_tab2 t -> pr_tab2 (renorm_tab2 t) mat mf mt = pr_tab2 t mat mf mt.
Proof.
  intros (H1 & H2 & _). unfold pr_tab2, renorm_tab2, tnr, tn2, pr_cont, pr_base.
  cbn [tC1 tC2 tL1 tL2 tbnd tint c1 c2 l1 l2 n1 n2]. now rewrite !write_rn.
Qed.
Lemma rn_tab1_inv t : mod_tab1 t -> inv_tab1 t -> inv_tab1 (renorm_tab1 t).
Proof.
  intros (_ & F & _) (H1 & H2 & H3 & H4). unfold inv_tab1, renorm_tab1. cbn [tbase tx ty]. rewrite !map_length.
  split; [exact H1|]. split; [exact H2|]. split; [now apply ascending_renorm|exact H4].
Qed.
Lemma rn_tab1_pr t mat mf mt : mod_tab1 t -> pr_tab1 (renorm_tab1 t) mat mf mt = pr_tab1 t mat mf mt.
Proof.
  intros (H1 & H5 & H6). unfold pr_tab1, renorm_tab1. cbn [tbase tx ty]. rewrite (rn_tab2_pr _ _ _ _ H1). f_equal.
  rewrite combine_map. apply pr_zip_map; [lia|].
  eapply Forall_impl; [|apply (Forall_combine _ _ _ _ H5 H6)].
  intros p [A B]. unfold pr_pair_real. cbn [fst snd]. now rewrite !write_rn.
Qed.
Lemma rounds_tab1 : rounds mod_tab1 rep_tab1 inv_tab1 renorm_tab1 pr_tab1 nc_tab1.
Proof.
  split.
  - intros t (H1 & H2 & H3). split; [now apply rn_tab2_rep|]. split; now apply Forall_ordinary.
  - exact rn_tab1_inv.
  - intros; now apply rn_tab1_pr.
  - intros t. unfold nc_tab1, tnp, renorm_tab1. cbn [tbase tx]. now rewrite map_length.
Qed.

(** ** sequences *)
Section All.
  Context {A : Type} {md rep inv : A -> Prop} {rn : A -> A} {pr : A -> Z -> Z -> Z -> text} {nc : A -> Z}.
  Hypothesis R : rounds md rep inv rn pr nc.
  Lemma all_rep l : Forall md l -> Forall rep (map rn l).
  Proof. intros H. apply Forall_map. eapply Forall_impl; [|exact H]. apply (rs_rep R). Qed.
  Lemma all_inv l : Forall md l -> Forall inv l -> Forall inv (map rn l).
  Proof.
    intros H K. apply Forall_map. rewrite Forall_forall in *. intros x Hx. apply (rs_inv R); auto.
  Qed.
  Lemma all_pr l mat mf mt : Forall md l -> pr_all pr (map rn l) mat mf mt = pr_all pr l mat mf mt.
  Proof.
    intros H. unfold pr_all. rewrite flat_map_map. apply flat_map_ext_Forall. eapply Forall_impl; [|exact H].
    intros x Hx. now apply (rs_pr R).
  Qed.
  Lemma all_nc l : nc_all nc (map rn l) = nc_all nc l.
  Proof. unfold nc_all. rewrite map_map. f_equal. apply map_ext. apply (rs_nc R). Qed.
  Lemma opt_pr o mat mf mt : (forall x, o = Some x -> md x) -> pr_opt pr (option_map rn o) mat mf mt = pr_opt pr o mat mf mt.
  Proof. intros H. destruct o as [x|]; [|reflexivity]. cbn [pr_opt option_map]. apply (rs_pr R). now apply H. Qed.
  Lemma opt_nc o : nc_opt nc (option_map rn o) = nc_opt nc o.
  Proof. destruct o as [x|]; [|reflexivity]. apply (rs_nc R). Qed.
  Lemma opt_rep o : (forall x, o = Some x -> md x) -> forall x, option_map rn o = Some x -> rep x.
  Proof. intros H x. destruct o as [y|]; [|discriminate]. intros [= <-]. apply (rs_rep R). now apply H. Qed.
  Lemma opt_inv o : (forall x, o = Some x -> md x) -> (forall x, o = Some x -> inv x) -> forall x, option_map rn o = Some x -> inv x.
  Proof. intros H K x. destruct o as [y|]; [|discriminate]. intros [= <-]. apply (rs_inv R); [now apply H|now apply K]. Qed.

  Lemma rounds_seq (invs : list A -> Prop) : (forall l, Forall md l -> Forall inv l -> invs l -> invs (map rn l)) ->
    rounds (mod_seq md) (rep_seq rep) (inv_seq inv invs) (rn_seq rn) (pr_iseq pr) (nc_iseq nc).
  Proof.
    intros HS. split.
    - intros q (H1 & H2 & H3). unfold rep_seq, rn_seq. cbn [istab isrec]. split; [now apply rn_tab2_rep|]. split; [exact H2|now apply all_rep].
    - intros q (_ & _ & H3) (K1 & K2 & K3 & K4 & K5). unfold inv_seq, rn_seq. cbn [istab isrec]. rewrite map_length.
      split; [exact K1|]. split; [exact K2|]. split; [exact K3|]. split; [now apply all_inv|]. now apply HS.
    - intros q mat mf mt (H1 & _ & H3). unfold pr_iseq, rn_seq. cbn [istab isrec]. rewrite rn_tab2_pr by auto. f_equal. now apply all_pr.
    - intros q. unfold nc_iseq, rn_seq. cbn [istab isrec]. f_equal. apply all_nc.
  Qed.
  Lemma rounds_seq_any : rounds (mod_seq md) (rep_seq rep) (inv_seq inv any) (rn_seq rn) (pr_iseq pr) (nc_iseq nc).
  Proof. apply rounds_seq. intros; exact Logic.I. Qed.
  Lemma some_inv l : Forall md l -> some_of inv l -> some_of inv (map rn l).
  Proof. intros H [K1 K2]. split; [now apply all_inv|]. now rewrite len_map. Qed.
  Lemma many_inv l : Forall md l -> many_of inv l -> many_of inv (map rn l).
  Proof. intros H [K1 K2]. split; [now apply all_inv|]. now rewrite len_map. Qed.
  Lemma rounds_some : rounds (Forall md) (Forall rep) (some_of inv) (map rn) (pr_all pr) (nc_all nc).
  Proof. split; [exact all_rep|exact some_inv|intros; now apply all_pr|exact all_nc]. Qed.
  Lemma rounds_many : rounds (Forall md) (Forall rep) (many_of inv) (map rn) (pr_all pr) (nc_all nc).
  Proof. split; [exact all_rep|exact many_inv|intros; now apply all_pr|exact all_nc]. Qed.
End All.

Lemma rounds_any {A} (md rep inv : A -> Prop) rn pr nc : rounds md rep inv rn pr nc -> rounds md rep any rn pr nc.
Proof. intros [H1 H2 H3 H4]. split; auto. Qed.
Definition list_any : rounds mod_list endf_list any renorm_list pr_list nc_list := rounds_list any (fun l _ _ => Logic.I).

Lemma rounds_seqw (inv : tab2 -> listr -> Prop) :
  (forall t l, mod_list l -> inv t l -> inv (renorm_tab2 t) (renorm_list l)) ->
  rounds (mod_seqw mod_list) (rep_seqw endf_list) (inv_seqw inv) (rn_seq renorm_list) (pr_iseq pr_list) (nc_iseq nc_list).
Proof.
  intros HI. split.
  - intros q (H1 & H3). unfold rep_seqw, rn_seq. cbn [istab isrec]. split; [now apply rn_tab2_rep|now apply (all_rep list_any)].
  - intros q (_ & H3) (K1 & K2 & K3 & K4). unfold inv_seqw, rn_seq. cbn [istab isrec]. rewrite len_map.
    split; [exact K1|]. split; [exact K2|]. split; [exact K3|]. apply Forall_map. rewrite Forall_forall in *. auto.
  - intros q mat mf mt (H1 & H3). unfold pr_iseq, rn_seq. cbn [istab isrec]. rewrite rn_tab2_pr by auto. f_equal. now apply (all_pr list_any).
  - intros q. unfold nc_iseq, rn_seq. cbn [istab isrec]. f_equal. apply (all_nc list_any).
Qed.

(** conditions on a LIST record that are only about its integers and the number of its values *)
Ltac counts := unfold renorm_list; cbn [lL1 lL2 lN2 lB]; rewrite ?len_map, ?map_length; auto.
