(** PropAgree.v -- C62: the typed reader of a whole tape and the tree index agree.
    The section classes are given by a table satisfying [table_ok]; PropClasses2.v
    gives the table of the library. *)
From Coq Require Import ZifyBool ZifyNat.
From Verif Require Import Base Disco DiscoProofs Records RecordProofs RecordRT RecordSound Layout
  RealRound RealProofs Spec Normal LineFacts Sec451 PropSec451 Sections SecSpec Codec SectionProofs
  SecLong Tree TreeSpec TreeProofs TreeGrammar TreeMaps PropTree PropTree2 Typed TypedSpec TypedProofs PropTyped.
Open Scope Z_scope.

(** whenever the reader succeeds on a text that begins with [t], it reads exactly [t] *)
Definition closed {A} (m : M A) (t : text) : Prop :=
  forall rest ln x s', m (mkst (t ++ rest) ln) = Ok x s' -> exists n, reads m t x n.
(** the text [t] is a line, the division of an item, and the rest of this item *)
Definition item {A} (stop : sdiv -> bool) (bd : sdiv -> M A) (t : text) (d : sdiv) : Prop :=
  exists l t1, t = l ++ LF :: t1 /\ noLF l /\ division_line l d /\ stop d = false /\ closed (bd d) t1.
(** read as an item, the text gives [x] *)
Definition gives {A} (bd : sdiv -> M A) (t : text) (x : A) : Prop := exists d n, headed bd t d x n.

Lemma lf_split a b c d : noLF a -> noLF b -> a ++ LF :: c = b ++ LF :: d -> a = b /\ c = d.
Proof.
  intros Na Nb E. assert (X := next_line_app a c Na). rewrite E, (next_line_app b d Nb) in X. injection X as -> ->. auto.
Qed.
Lemma headed_again {A} (bd : sdiv -> M A) t h x n l t1 d : headed bd t h x n -> t = l ++ LF :: t1 -> noLF l -> division_line l d ->
  h = d /\ reads (bd d) t1 x n.
Proof.
  intros (l' & t2 & -> & N' & D' & R) E N D. apply lf_split in E; [|assumption..]. destruct E as [-> ->].
  rewrite (division_fun _ _ _ D' D) in *. auto.
Qed.
Lemma starts {A B} stop (bd : sdiv -> M A) (g : B -> text) u u' dE :
  (forall ln, rd_sdiv (mkst u ln) = Ok dE (mkst u' (ln + 1))) -> forall ss, Forall (fun s => exists d, item stop bd (g s) d) ss ->
  exists d0 t0, forall ln, rd_sdiv (mkst (flat_map g ss ++ u) ln) = Ok d0 (mkst t0 (ln + 1)).
Proof.
  intros Eu ss [|s r (d & l & t1 & Eg & Nl & D & Sd & C) _]; cbn [flat_map app]; [eauto|].
  do 2 eexists. intros ln. rewrite Eg, <- !app_assoc. cbn [app]. exact (rd_line _ _ _ _ Nl D).
Qed.
(** a loop over items followed by a text [u] that begins with the closing division *)
Lemma loop_agree {A B} stop (bd : sdiv -> M A) (g : B -> text) u u' dE :
  (forall ln, rd_sdiv (mkst u ln) = Ok dE (mkst u' (ln + 1))) -> stop dE = true ->
  forall ss, Forall (fun s => exists d, item stop bd (g s) d) ss ->
  forall ln d0 s0, rd_sdiv (mkst (flat_map g ss ++ u) ln) = Ok d0 s0 -> forall fuel,
    (forall xs s', div_loop stop bd fuel d0 s0 = Ok xs s' -> Forall2 (fun s x => gives bd (g s) x) ss xs)
    /\ (forall xs, (length ss < fuel)%nat -> Forall2 (fun s x => gives bd (g s) x) ss xs ->
          exists k, div_loop stop bd fuel d0 s0 = Ok xs (mkst u' k)).
Proof.
  intros Eu Su. induction 1 as [|s ss (d & l & t1 & Eg & Nl & D & Sd & C) Fs IH]; intros ln d0 s0 E0 fuel; cbn [flat_map app] in E0.
  - rewrite Eu in E0. injection E0 as <- <-. split.
    + intros xs s' E. destruct fuel; [discriminate|]. cbn [div_loop] in E. rewrite Su in E. injection E as <- _. constructor.
    + intros xs Hf F. inversion F; subst. destruct fuel; [lia|]. cbn [div_loop]. rewrite Su. eexists. reflexivity.
  - rewrite Eg, <- !app_assoc in E0. cbn [app] in E0. rewrite (rd_line _ _ _ _ Nl D) in E0. injection E0 as <- <-. split.
    + intros xs s' E. destruct fuel as [|f]; [discriminate|]. cbn [div_loop] in E. rewrite Sd in E. apply bind_ok in E. destruct E as (x & s1 & Ex & E).
      destruct (C _ _ _ _ Ex) as (n & R). rewrite R in Ex. injection Ex as <-. apply bind_ok in E. destruct E as (d' & s2 & Ed & E).
      apply bind_ok in E. destruct E as (r & s3 & Er & E). injection E as <- _. constructor.
      * exists d, n, l, t1. auto.
      * exact (proj1 (IH _ _ _ Ed f) _ _ Er).
    + intros xs Hf F. destruct fuel as [|f]; [cbn [length] in Hf; lia|]. inversion F as [|? x ? r G F' E1 E2]; subst. destruct G as (h & n & G).
      destruct (headed_again _ _ _ _ _ _ _ _ G Eg Nl D) as [-> R]. cbn [div_loop]. rewrite Sd. unfold bind at 1. rewrite R.
      destruct (starts _ _ _ _ _ _ Eu _ Fs) as (d' & t' & Ed). specialize (Ed (ln + 1 + n)). unfold bind at 1. rewrite Ed.
      destruct (proj2 (IH _ _ _ Ed f) r ltac:(cbn [length] in Hf; lia) F') as (k & K). unfold bind. rewrite K. exists k. reflexivity.
Qed.

Lemma items_len {A B} stop (bd : sdiv -> M A) (g : B -> text) ss : Forall (fun s => exists d, item stop bd (g s) d) ss -> (length ss <= length (flat_map g ss))%nat.
Proof.
  induction 1 as [|s ss (d & l & t1 & E & _) _ IH]; [cbn; lia|]. cbn [flat_map length]. rewrite E, !app_length. cbn [length]. lia.
Qed.
(** a group of items: the pattern of a file and of a material *)
Section Group.
  Variables (A B C : Type) (stop : sdiv -> bool) (bd : sdiv -> M A) (key : A -> Z) (mk : sdiv -> list (Z * A) -> C) (g : B -> text).
  Definition grp (d : sdiv) : M C :=
    on_err (b <- get_pos ;; l <- div_loop stop bd (Datatypes.S (Datatypes.S (length b))) d ;; m <- lift (fill key l) ;; ret (mk d m)) h_std.
  Lemma group_agree ss s1 d l t1 e dE : hd_error ss = Some s1 -> g s1 = l ++ LF :: t1 -> noLF l -> division_line l d ->
    Forall (fun s => exists d, item stop bd (g s) d) ss -> noLF e -> division_line e dE -> stop dE = true ->
    (exists t2, flat_map g ss ++ e ++ [LF] = l ++ LF :: t2 /\ closed (grp d) t2)
    /\ (forall y, gives grp (flat_map g ss ++ e ++ [LF]) y
         <-> exists xs m, Forall2 (fun s x => gives bd (g s) x) ss xs /\ fill key xs = Val m /\ y = mk d m).
  Proof.
    intros Hh Eg Nl D Fs Ne De Se. destruct ss as [|s0 ss]; [discriminate|]. injection Hh as ->.
    set (t2 := t1 ++ flat_map g ss ++ e ++ [LF]).
    assert (ET : flat_map g (s1 :: ss) ++ e ++ [LF] = l ++ LF :: t2).
    { cbn [flat_map]. rewrite Eg. unfold t2. rewrite <- !app_assoc. reflexivity. }
    assert (Eu : forall rest ln, rd_sdiv (mkst (e ++ LF :: rest) ln) = Ok dE (mkst rest (ln + 1))) by (intros; now apply rd_line).
    assert (E0 : forall rest ln, rd_sdiv (mkst (flat_map g (s1 :: ss) ++ e ++ LF :: rest) ln) = Ok d (mkst (t2 ++ rest) (ln + 1))).
    { intros rest ln. replace (flat_map g (s1 :: ss) ++ e ++ LF :: rest) with (l ++ LF :: t2 ++ rest); [now apply rd_line|].
      transitivity ((l ++ LF :: t2) ++ rest); [now rewrite <- app_assoc|]. rewrite <- ET, <- !app_assoc. reflexivity. }
    assert (Ok1 : forall xs m, Forall2 (fun s x => gives bd (g s) x) (s1 :: ss) xs -> fill key xs = Val m ->
      exists n, reads (grp d) t2 (mk d m) n).
    { intros xs m F Em. assert (Rn : exists n, runs stop bd xs (flat_map g (s1 :: ss) ++ e ++ [LF]) n).
      { clear - F Fs Ne De Se. induction F as [|s x r xs G F IH]; [exists 1; now apply (runs_end _ _ e dE)|].
        inversion Fs as [|? ? (d & l & t1 & E & Nl & D & Sd & _) Fs']; subst. destruct (IH Fs') as (n & R). destruct G as (h & k & G).
        destruct (headed_again _ _ _ _ _ _ _ _ G E Nl D) as [-> _]. exists (k + 1 + n). cbn [flat_map]. rewrite <- app_assoc. eapply runs_cons; eassumption. }
      destruct Rn as (n & Rn). assert (Q := fun b => runs_headed stop bd _ _ _ (fun d r => m <- lift (fill key r) ;; ret (mk d m)) b Rn).
      destruct (Q (mk d m)) as (l' & d' & t' & E' & N' & D' & _ & R). rewrite ET in E'. apply lf_split in E'; [|assumption..]. destruct E' as [<- <-].
      rewrite (division_fun _ _ _ D' D) in *. exists (n - 1). unfold grp. apply R. intros s. unfold bind, lift. rewrite Em. reflexivity. }
    assert (Inv : forall rest ln y s', grp d (mkst (t2 ++ rest) ln) = Ok y s' ->
      exists xs m, Forall2 (fun s x => gives bd (g s) x) (s1 :: ss) xs /\ fill key xs = Val m /\ y = mk d m).
    { intros rest ln y s' E. unfold grp in E. apply on_err_ok in E. apply bind_ok in E. destruct E as (b & s2 & Eb & E). injection Eb as <- <-.
      apply bind_ok in E. destruct E as (xs & s3 & El & E). apply bind_ok in E. destruct E as (m & s4 & Em & E). injection E as <- _. apply lift_ok in Em. destruct Em as [Em _].
      assert (E1 := E0 rest (ln - 1)). replace (ln - 1 + 1) with ln in E1 by lia.
      exists xs, m. split; [|auto]. exact (proj1 (loop_agree stop bd g _ _ _ (Eu rest) Se _ Fs _ _ _ E1 _) _ _ El). }
    split.
    - exists t2. split; [exact ET|]. intros rest ln y s' E. destruct (Inv _ _ _ _ E) as (xs & m & F & Em & ->). exact (Ok1 _ _ F Em).
    - intros y. split.
      + intros (h & n & G). destruct (headed_again _ _ _ _ _ _ _ _ G ET Nl D) as [-> R]. exact (Inv _ _ _ _ (R [] 0)).
      + intros (xs & m & F & Em & ->). destruct (Ok1 _ _ F Em) as (n & R). exists d, n, l, t2. auto.
  Qed.
End Group.

Section Classes.
  Variable code : Type.
  Variable body : code -> Type.
  Variable kind : forall c, skind (body c).
  Variable class_of : Z -> Z -> option code.
  Variable rep inv : forall c, body c -> Prop.
  Hypothesis T : table_ok code body kind class_of rep inv.
  Notation ysec := (ysec code body). Notation yfile := (yfile code body). Notation ymat := (ymat code body). Notation ytape := (ytape code body).

  (** ** what the tape must look like *)
  (** the class of the section, if there is one, reads its own lines only, or does so when the line that ends it has 66 columns *)
  Definition line_based (s : sec_src) : Prop :=
    forall c, class_of (x_mf s) (x_mt s) = Some c ->
    section_rt (kind c) (rep c) (inv c) \/ (section_long (kind c) /\ (66 <= length (x_last s))%nat).
  (** every section is closed by one SEND, every file by one FEND, every material by one
      MEND; no file 30; a file 8 begins with 454, 457 or 459 *)
  Definition plain_file (f : file_src) : Prop :=
    Forall (fun s => x_sends s = [] /\ line_based s) (x_secs f) /\ len (x_fends f) = 1
    /\ f_mf f <> 30 /\ (f_mf f = 8 -> let mt := x_mt (hd sec0 (x_secs f)) in mt = 454 \/ mt = 457 \/ mt = 459).
  Definition plain_mat (m : mat_src) : Prop := Forall plain_file (x_files m) /\ len (x_mends m) = 1 /\ 0 < m_mat m.
  Definition plain_tape (t : tape_src) : Prop := 0 < len (x_mats t) < 2 ^ 31 /\ Forall plain_mat (x_mats t).

  (** ** what agreement means *)
  (** the tree section, parsed as the class for its MF and MT, gives [y] *)
  Definition parses_as (s : tsec) (y : ysec) : Prop :=
    class_of (ts_mf s) (ts_mt s) = Some (projT1 y) /\ sec_parse (kind (projT1 y)) s = Val (projT2 y).
  Definition tree_sec (s : sec_src) : tsec := mktsec (x_mat s) (x_mf s) (x_mt s) (lines_text (sec_lines s)).
  (** the same files and sections; every typed section is what the tree section parses as *)
  Definition same_material (x : tmat) (y : ymat) : Prop :=
    tm_mat x = ym_mat y
    /\ (forall mf, mat_hasMF x mf = ymat_hasMF y mf) /\ (forall mf mt, mat_hasMFMT x mf mt = ymat_hasMFMT y mf mt)
    /\ (forall mf mt v, ymat_section y mf mt = Val v <-> exists s, mat_section x mf mt = Val s /\ parses_as s v).

  Lemma class_number c mf mt h : class_of mf mt = Some c -> smt h = mt -> k_mt (kind c) h = mt /\ k_rmt (kind c) h = mt.
  Proof.
    intros E H. assert (Ek : k_mt (kind c) h = mt).
    { unfold k_mt. destruct (k_fix (kind c)) as [n|] eqn:F; [|exact H]. assert (M := tk_fun _ _ _ _ _ _ T _ _ _ E). subst mf. symmetry. exact (tk_own _ _ _ _ _ _ T _ _ _ F E). }
    split; [exact Ek|]. unfold k_rmt. destruct (k_own (kind c)); congruence.
  Qed.
  (** reading a section whose lines carry MT /= 0 up to the line with MT = 0 *)
  Lemma section_closed c h mat bl la : section_rt (kind c) (rep c) (inv c) \/ (section_long (kind c) /\ (66 <= length la)%nat) -> k_rmt (kind c) h <> 0 ->
    Forall body_line bl -> last_line la -> Forall noLF (bl ++ [la]) ->
    closed (Sections.rd_section (kind c) h mat) (lines_text (bl ++ [la])).
  Proof.
    intros S Hr Fb (ma & mf & La) Nl rest ln x s' E. set (t := lines_text (bl ++ [la])) in *.
    assert (Ln : forall i l, nth_error (bl ++ [la]) i = Some l -> nth_line (t ++ rest) i = l) by (intros i l H; exact (lines_nth _ _ _ _ H Nl)).
    assert (S' : exists s1, consumed (carries (k_rmat (kind c) h mat) (k_mf (kind c)) (k_rmt (kind c) h)) (mkst (t ++ rest) ln) s1
       /\ consumed (ends_section mat (k_mf (kind c))) s1 s' /\ line s' = line s1 + 1
       /\ let n := line s' - ln in forall t' ln', (forall i, Z.of_nat i < n -> nth_line t' i = nth_line (t ++ rest) i) ->
          Sections.rd_section (kind c) h mat (mkst t' ln') = Ok x (mkst (drop_lines (Z.to_nat n) t') (ln' + n))).
    { destruct S as [S|(S & Hla)].
      - destruct (sc_sound _ _ _ S _ _ _ _ _ E) as (_ & _ & _ & _ & _ & _ & _ & _ & _ & s1 & C1 & C2 & C3). exists s1. do 3 (split; [assumption|]). exact (sc_local _ _ _ S _ _ _ _ _ E).
      - destruct (S _ _ _ _ _ E) as [(s1 & C1 & C2 & C3 & C4 & _)|(i & Bi & Sh & _)]; [exists s1; auto|exfalso]. cbn [buf] in Bi, Sh.
        destruct (lt_eq_lt_dec i (length bl)) as [[H|H]|H].
        + destruct (nth_error bl i) as [l|] eqn:X; [|apply nth_error_None in X; lia]. rewrite (Ln i l) in Sh by (rewrite nth_error_app1 by lia; exact X).
          destruct (proj1 (Forall_forall _ _) Fb _ (nth_error_In _ _ X)) as (p & q & r & Cl & Nr). apply carries_long in Cl; [lia|exact Nr].
        + subst i. rewrite (Ln (length bl) la) in Sh by (rewrite nth_error_app2, Nat.sub_diag by lia; reflexivity). lia.
        + specialize (Bi (length bl) H). rewrite (Ln (length bl) la) in Bi by (rewrite nth_error_app2, Nat.sub_diag by lia; reflexivity).
          destruct (carries_fun _ _ _ _ _ _ _ La Bi) as (_ & _ & ?). congruence. }
    destruct S' as (s1 & (a & B1 & L1 & P1) & (b & B2 & L2 & P2) & L3 & Q). cbn [buf line] in *.
    assert (b = 1%nat) by lia. subst b.
    assert (Ha : a = length bl).
    { destruct (lt_eq_lt_dec a (length bl)) as [[H|H]|H]; [|exact H|]; exfalso.
      - destruct (nth_error bl a) as [l|] eqn:X; [|apply nth_error_None in X; lia]. assert (Bl := proj1 (Forall_forall _ _) Fb _ (nth_error_In _ _ X)).
        destruct Bl as (p & q & r & Cl & Nr). specialize (P2 0%nat ltac:(lia)). rewrite B1, drop_lines_nth, Nat.add_0_r in P2.
        rewrite (Ln a l) in P2 by (rewrite nth_error_app1 by lia; exact X). destruct P2 as (C2 & _). destruct (carries_fun _ _ _ _ _ _ _ Cl C2) as (_ & _ & ?). congruence.
      - specialize (P1 (length bl) H). rewrite (Ln (length bl) la) in P1 by (rewrite nth_error_app2, Nat.sub_diag by lia; reflexivity).
        destruct (carries_fun _ _ _ _ _ _ _ La P1) as (_ & _ & ?). congruence. }
    assert (Hn : line s' - ln = Z.of_nat (length (bl ++ [la]))) by (rewrite app_length; cbn [length]; lia).
    exists (Z.of_nat (length (bl ++ [la]))). intros rest' ln'.
    cbv zeta in Q. rewrite Hn in Q.
    rewrite Q.
    - rewrite Nat2Z.id. unfold t. rewrite drop_lines_lines by exact Nl. reflexivity.
    - intros i Hi. destruct (nth_error (bl ++ [la]) i) as [l|] eqn:X; [|apply nth_error_None in X; lia].
      rewrite (Ln i l X). exact (lines_nth _ _ _ _ X Nl).
  Qed.
  Definition sec_gives (s : sec_src) (y : ysec) : Prop := gives (rd_any kind class_of (x_mf s)) (lines_text (sec_all s)) y.
  Lemma sec_item s : sec_ok s -> x_sends s = [] -> line_based s ->
    (exists d, item is_fend (rd_any kind class_of (x_mf s)) (lines_text (sec_all s)) d
               /\ smat d = x_mat s /\ smf d = x_mf s /\ smt d = x_mt s /\ division_line (x_head s) d)
    /\ (forall y, sec_gives s y -> y_mt y = x_mt s) /\ (forall y, sec_gives s y <-> parses_as (tree_sec s) y).
  Proof.
    intros (H & Fb & La & _ & Nl) Es Lb. apply head_iff in H. destruct H as (d & D & Hd & E1 & E2 & E3).
    unfold sec_gives, tree_sec in *. unfold sec_all in *. rewrite Es, app_nil_r in *. unfold sec_lines in *. inversion Nl as [|? ? N1 N2]; subst.
    assert (H0 : smt d <> 0) by (unfold is_head in Hd; lia).
    assert (Cl : closed (rd_any kind class_of (x_mf s) d) (lines_text (x_body s ++ [x_last s]))).
    { unfold rd_any. rewrite E3. destruct (class_of (x_mf s) (x_mt s)) as [c|] eqn:Ec; [|intros rest ln x s' E; discriminate].
      destruct (class_number c _ _ d Ec E3) as (K1 & K2).
      assert (C := section_closed c d (smat d) _ _ (Lb c Ec) ltac:(congruence) Fb La N2).
      intros rest ln x s' E. apply bind_ok in E. destruct E as (z & s1 & Ez & E). injection E as <- _. destruct (C _ _ _ _ Ez) as (n & R).
      exists n. intros r' l'. unfold bind. rewrite R. reflexivity. }
    split; [|split].
    - exists d. split; [|auto]. exists (x_head s), (lines_text (x_body s ++ [x_last s])). rewrite lines_cons'. split; [reflexivity|]. split; [exact N1|]. split; [exact D|].
      split; [|exact Cl]. unfold is_head in Hd. unfold is_fend, is_fend_permissive, is_send_permissive. lia.
    - intros y (h & n & G). destruct (headed_again _ _ _ _ _ _ _ _ G (lines_cons' _ _) N1 D) as [-> R]. specialize (R [] 0). unfold rd_any in R. rewrite E3 in R.
      destruct (class_of (x_mf s) (x_mt s)) as [c|] eqn:Ec; [|discriminate]. apply bind_ok in R. destruct R as (z & s1 & Ez & E). injection E as <- _.
      destruct (so_sound _ _ _ (tk_core _ _ _ _ _ _ T c) _ _ _ _ _ Ez) as (_ & _ & _ & K & _). change (s_mt z = x_mt s). rewrite K. exact (proj1 (class_number c _ _ d Ec E3)).
    - intros y. unfold parses_as. cbn [ts_mf ts_mt]. unfold sec_parse, rd_parse. cbn [ts_text]. rewrite lines_cons'. unfold bind. rewrite (rd_line _ _ _ _ N1 D). split.
      + intros (h & n & G). destruct (headed_again _ _ _ _ _ _ _ _ G eq_refl N1 D) as [-> R]. specialize (R [] (1 + 1)). rewrite app_nil_r in R. unfold rd_any in R. rewrite E3 in R.
        destruct (class_of (x_mf s) (x_mt s)) as [c|] eqn:Ec; [|discriminate]. apply bind_ok in R. destruct R as (z & s1 & Ez & E). injection E as <- _. cbn [projT1 projT2]. rewrite Ez. auto.
      + intros (Ec & P). destruct y as [c x]. cbn [projT1 projT2] in *. destruct (Sections.rd_section (kind c) d (smat d) (mkst (lines_text (x_body s ++ [x_last s])) (1 + 1))) as [z s1|e s1|] eqn:Ez; [|discriminate|discriminate].
        injection P as ->. destruct (Cl [] (1 + 1) (existT _ c x) s1) as (n & R).
        { rewrite app_nil_r. unfold rd_any. rewrite E3, Ec. unfold bind. rewrite Ez. reflexivity. }
        exists d, n, (x_head s), (lines_text (x_body s ++ [x_last s])). split; [reflexivity|]. auto.
  Qed.

  Lemma gives_class s y : sec_ok s -> x_sends s = [] -> line_based s -> sec_gives s y -> class_of (x_mf s) (x_mt s) = Some (projT1 y).
  Proof. intros O E L G. apply (proj2 (proj2 (sec_item s O E L))) in G. exact (proj1 G). Qed.
  Lemma Forall2_imp {A B} (P Q : A -> B -> Prop) l r : (forall a b, In a l -> P a b -> Q a b) -> Forall2 P l r -> Forall2 Q l r.
  Proof. intros H F. induction F as [|a b l r X F IH]; constructor; [apply H; [now left|exact X]|]. apply IH. intros c e I. apply H. now right. Qed.
  Lemma one_line (ls : list text) : len ls = 1 -> exists e, ls = [e].
  Proof. unfold len. destruct ls as [|e [|? ?]]; cbn [length]; intros H; try lia. eauto. Qed.
  Lemma flat_lines {A} (g : A -> list text) l : lines_text (flat_map g l) = flat_map (fun a => lines_text (g a)) l.
  Proof. induction l as [|a l IH]; [reflexivity|]. cbn [flat_map]. now rewrite lines_app, IH. Qed.

  Definition file_gives (f : file_src) (y : yfile) : Prop := gives (rd_any_file kind class_of) (lines_text (file_all f)) y.
  Lemma file_item f : file_ok f -> plain_file f ->
    (exists d, item is_mend (rd_any_file kind class_of) (lines_text (file_all f)) d /\ smat d = f_mat f /\ smf d = f_mf f)
    /\ (forall y, file_gives f y <-> yf_mf y = f_mf f /\ exists xs, Forall2 sec_gives (x_secs f) xs /\ fill y_mt xs = Val (yf_secs y)).
  Proof.
    intros (Ne & Os & Om & _ & Fe & Nf) (Ps & L1 & H30 & H8). destruct (one_line _ L1) as (e & Ee). rewrite Ee in *.
    apply Forall_inv in Fe, Nf. apply fend_iff in Fe. destruct Fe as (dE & De & Se). unfold file_gives, file_all. rewrite Ee, lines_app, flat_lines.
    replace (lines_text [e]) with (e ++ [LF]) by (rewrite lines_cons'; reflexivity).
    set (tx := flat_map (fun s => lines_text (sec_all s)) (x_secs f) ++ e ++ [LF]).
    destruct (x_secs f) as [|s0 ss] eqn:Ef; [congruence|].
    assert (Hm : f_mf f = x_mf s0 /\ f_mat f = x_mat s0) by (unfold f_mf, f_mat; rewrite Ef; auto).
    assert (Ps0 := Forall_inv Ps). cbn beta in Ps0. destruct Ps0 as (Sn & Lb). destruct (sec_item s0 (Forall_inv Os) Sn Lb) as ((d & (l & t1 & Eg & Nl & D & Sd & Cl) & D1 & D2 & D3 & _) & _).
    assert (Fs : Forall (fun s => exists d, item is_fend (rd_any kind class_of (f_mf f)) (lines_text (sec_all s)) d) (s0 :: ss)).
    { rewrite Forall_forall in *. intros s Hs. destruct (Ps s Hs) as (Sn' & Lb'). destruct (sec_item s (Os s Hs) Sn' Lb') as ((d' & I & _) & _). exists d'. rewrite <- (Om s Hs). exact I. }
    assert (Gs : forall xs, Forall2 sec_gives (s0 :: ss) xs <-> Forall2 (fun s x => gives (rd_any kind class_of (f_mf f)) (lines_text (sec_all s)) x) (s0 :: ss) xs).
    { intros xs. rewrite Forall_forall in Om. split; apply Forall2_imp; intros s x Hs G; unfold sec_gives in *; rewrite (Om s Hs) in *; exact G. }
    destruct (group_agree _ _ _ is_fend (rd_any kind class_of (f_mf f)) y_mt (fun _ m => mkyfile (f_mf f) m) (fun s => lines_text (sec_all s)) (s0 :: ss) s0 d l t1 e dE eq_refl Eg Nl D Fs Nf De Se) as ((t2 & E2 & C2) & G2).
    fold tx in E2, G2.
    destruct (known_mf (f_mf f)) eqn:K.
    - assert (Er : forall d' st, smf d' = f_mf f -> smt d' = x_mt s0 -> rd_any_file kind class_of d' st
          = grp ysec yfile is_fend (rd_any kind class_of (f_mf f)) y_mt (fun _ m => mkyfile (f_mf f) m) d' st).
      { intros d' st E1' E3'. unfold rd_any_file. rewrite E1', K. unfold rd_yfile. replace (f_mf f =? 30) with false by lia.
        replace ((f_mf f =? 8) && negb ((smt d' =? 454) || (smt d' =? 457) || (smt d' =? 459))) with false; [reflexivity|].
        rewrite E3'. destruct (Z.eqb_spec (f_mf f) 8) as [E8|]; [|reflexivity]. specialize (H8 E8). cbn [hd] in H8. cbv zeta in H8. lia. }
      assert (Hd : smf d = f_mf f /\ smt d = x_mt s0) by (split; [rewrite D2; symmetry; apply Hm|exact D3]). destruct Hd as (Hd1 & Hd2).
      split.
      + exists d. split; [|split; [rewrite D1; symmetry; apply Hm|exact Hd1]]. exists l, t2. split; [exact E2|]. split; [exact Nl|]. split; [exact D|]. split.
        * unfold is_fend, is_mend, is_fend_permissive, is_send_permissive in *.
          assert (smf d <> 0) by (destruct (Forall_inv Os) as ((_ & Z0 & _) & _); congruence). lia.
        * intros rest ln x s' E. rewrite (Er d _ Hd1 Hd2) in E. destruct (C2 _ _ _ _ E) as (n & R). exists n. intros r' l'. rewrite (Er d _ Hd1 Hd2). apply R.
      + intros y. assert (X : gives (rd_any_file kind class_of) tx y <-> gives (grp ysec yfile is_fend (rd_any kind class_of (f_mf f)) y_mt (fun _ m => mkyfile (f_mf f) m)) tx y).
        { split; intros (h & n & G); destruct (headed_again _ _ _ _ _ _ _ _ G E2 Nl D) as [-> R]; exists d, n, l, t2; (split; [exact E2|]; split; [exact Nl|]; split; [exact D|]);
            intros r' l'; specialize (R r' l'); rewrite (Er d _ Hd1 Hd2) in *; exact R. }
        rewrite X, G2. split.
        * intros (xs & m & F & Em & ->). cbn [yf_mf yf_secs]. split; [reflexivity|]. exists xs. split; [now apply Gs|exact Em].
        * intros (Ey & xs & F & Em). exists xs, (yf_secs y). split; [now apply Gs|]. split; [exact Em|]. destruct y as [q w]. cbn in *. congruence.
    - assert (Er : forall d' st, smf d' = f_mf f -> exists s', rd_any_file kind class_of d' st = Err EStd s') by (intros d' st E1'; unfold rd_any_file; rewrite E1', K; eexists; reflexivity).
      assert (Hd1 : smf d = f_mf f) by (rewrite D2; symmetry; apply Hm).
      split.
      + exists d. split; [|split; [rewrite D1; symmetry; apply Hm|exact Hd1]]. exists l, t2. split; [exact E2|]. split; [exact Nl|]. split; [exact D|]. split.
        * unfold is_fend, is_mend, is_fend_permissive, is_send_permissive in *.
          assert (smf d <> 0) by (destruct (Forall_inv Os) as ((_ & Z0 & _) & _); congruence). lia.
        * intros rest ln x s' E. destruct (Er d (mkst (t2 ++ rest) ln) Hd1). congruence.
      + intros y. split.
        * intros (h & n & G); destruct (headed_again _ _ _ _ _ _ _ _ G E2 Nl D) as [-> R]. specialize (R [] 0). destruct (Er d (mkst (t2 ++ []) 0) Hd1). congruence.
        * intros (_ & xs & F & _). exfalso. inversion F as [|a0 x r0 r1 G F0 Q1 Q2]; subst. apply (gives_class _ _ (Forall_inv Os) Sn Lb) in G.
          assert (M := tk_fun _ _ _ _ _ _ T _ _ _ G). destruct (tk_mf _ _ _ _ _ _ T (projT1 x)) as (_ & K' & _). destruct Hm as (Hm & _). congruence.
  Qed.

  Definition mat_gives (m : mat_src) (y : ymat) : Prop := gives (rd_ymat kind class_of) (lines_text (mat_all m)) y.
  Lemma mat_item m : mat_ok m -> plain_mat m ->
    (exists d, item not_tend (rd_ymat kind class_of) (lines_text (mat_all m)) d)
    /\ (forall y, mat_gives m y <-> ym_mat y = m_mat m /\ exists fs, Forall2 file_gives (x_files m) fs /\ fill yf_mf fs = Val (ym_files y)).
  Proof.
    intros (Ne & Of & Om & _ & Fe & Nf) (Pf & L1 & Hp). destruct (one_line _ L1) as (e & Ee). rewrite Ee in *.
    apply Forall_inv in Fe, Nf. apply mend_iff in Fe. destruct Fe as (dE & De & Se). unfold mat_gives, mat_all. rewrite Ee, lines_app, flat_lines.
    replace (lines_text [e]) with (e ++ [LF]) by (rewrite lines_cons'; reflexivity).
    set (tx := flat_map (fun f => lines_text (file_all f)) (x_files m) ++ e ++ [LF]).
    destruct (x_files m) as [|f0 fs] eqn:Ef; [congruence|].
    assert (Hm : m_mat m = f_mat f0) by (unfold m_mat; rewrite Ef; auto).
    destruct (file_item f0 (Forall_inv Of) (Forall_inv Pf)) as ((d & (l & t1 & Eg & Nl & D & Sd & Cl) & D1 & D2) & _).
    assert (Fs : Forall (fun f => exists d, item is_mend (rd_any_file kind class_of) (lines_text (file_all f)) d) (f0 :: fs)).
    { rewrite Forall_forall in *. intros f Hf. destruct (file_item f (Of f Hf) (Pf f Hf)) as ((d' & I & _) & _). eauto. }
    destruct (group_agree _ _ _ is_mend (rd_any_file kind class_of) yf_mf (fun d m => mkymat (smat d) m) (fun f => lines_text (file_all f)) (f0 :: fs) f0 d l t1 e dE eq_refl Eg Nl D Fs Nf De Se) as ((t2 & E2 & C2) & G2).
    fold tx in E2, G2. split.
    - exists d, l, t2. split; [exact E2|]. split; [exact Nl|]. split; [exact D|]. split; [unfold not_tend; lia|]. exact C2.
    - intros y. unfold rd_ymat. unfold grp in G2. rewrite G2. split.
      + intros (xs & r & F & Em & ->). cbn [ym_mat ym_files]. split; [congruence|]. exists xs. auto.
      + intros (Ey & xs & F & Em). exists xs, (ym_files y). split; [exact F|]. split; [exact Em|]. destruct y as [q w]. cbn in *. congruence.
  Qed.

  Lemma fill_find {A} (key : A -> Z) l m : fill key l = Val m -> forall k a, mfind k m = Some a <-> In a l /\ key a = k.
  Proof.
    intros E k a. destruct (fill_inv _ _ _ E) as (As & Fk & I & _). assert (Nd := strict_NoDup _ As). split.
    - intros H. apply mfind_In in H. assert (K := proj1 (Forall_forall _ _) Fk _ H). cbn in K. subst k. split; [now apply I|reflexivity].
    - intros (H & <-). apply In_mfind; [exact Nd|]. now apply I.
  Qed.
  Lemma Forall2_at {A B} (P : A -> B -> Prop) l r : Forall2 P l r -> (forall a, In a l -> exists b, In b r /\ P a b) /\ (forall b, In b r -> exists a, In a l /\ P a b).
  Proof.
    induction 1 as [|a b l r H _ (I1 & I2)]; [split; intros ? []|]. split.
    - intros c [<-|Hc]; [exists b; split; [now left|exact H]|]. destruct (I1 c Hc) as (e & He & Pe). exists e. split; [now right|exact Pe].
    - intros c [<-|Hc]; [exists a; split; [now left|exact H]|]. destruct (I2 c Hc) as (e & He & Pe). exists e. split; [now right|exact Pe].
  Qed.
  Lemma F2_length {A B} (P : A -> B -> Prop) l r : Forall2 P l r -> length l = length r.
  Proof. induction 1; cbn [length]; congruence. Qed.
  Lemma bool_eq a b : (a = true <-> b = true) -> a = b.
  Proof. destruct a, b; intuition congruence. Qed.
  Lemma same_holds m x y : mat_ok m -> plain_mat m -> holds m x -> mat_gives m y -> same_material x y.
  Proof.
    intros Om Pm (H1 & H2 & _ & H4 & H5 & _) G. destruct (mat_item m Om Pm) as (_ & G'). apply G' in G. clear G'. destruct G as (Ey & fs & F2 & Ef).
    destruct Om as (_ & Of & _ & _). destruct Pm as (Pf & _). rewrite Forall_forall in Of, Pf.
    assert (Ff := fill_find _ _ _ Ef). destruct (Forall2_at _ _ _ F2) as (A1 & A2).
    assert (Fg : forall f yf, In f (x_files m) -> file_gives f yf -> yf_mf yf = f_mf f /\ exists xs, Forall2 sec_gives (x_secs f) xs /\ fill y_mt xs = Val (yf_secs yf))
      by (intros f yf Hf G; exact (proj1 (proj2 (file_item f (Of f Hf) (Pf f Hf)) yf) G)).
    (* a typed section and its source *)
    assert (Sx : forall mf mt v, (exists yf, In yf fs /\ yf_mf yf = mf /\ mfind mt (yf_secs yf) = Some v)
        <-> exists f s, In f (x_files m) /\ In s (x_secs f) /\ f_mf f = mf /\ x_mt s = mt /\ sec_gives s v).
    { intros mf mt v. split.
      - intros (yf & Hy & <- & Hv). destruct (A2 yf Hy) as (f & Hf & Gf). destruct (Fg f yf Hf Gf) as (Em & xs & Fx & Ex).
        apply (fill_find _ _ _ Ex) in Hv. destruct Hv as (Hv & <-). destruct (proj2 (Forall2_at _ _ _ Fx) v Hv) as (s & Hs & Gs).
        exists f, s. split; [exact Hf|]. split; [exact Hs|]. split; [now symmetry|]. split; [|exact Gs].
        destruct (Pf f Hf) as (Ps & _). rewrite Forall_forall in Ps. destruct (Ps s Hs) as (Sn & Lb). destruct (Of f Hf) as (_ & Os & _). rewrite Forall_forall in Os.
        symmetry. exact (proj1 (proj2 (sec_item s (Os s Hs) Sn Lb)) v Gs).
      - intros (f & s & Hf & Hs & <- & <- & Gs). destruct (A1 f Hf) as (yf & Hy & Gf). destruct (Fg f yf Hf Gf) as (Em & xs & Fx & Ex).
        exists yf. split; [exact Hy|]. split; [exact Em|]. apply (fill_find _ _ _ Ex).
        destruct (Pf f Hf) as (Ps & _). rewrite Forall_forall in Ps. destruct (Ps s Hs) as (Sn & Lb). destruct (Of f Hf) as (_ & Os & _ & Nd & _). rewrite Forall_forall in Os.
        assert (Q := proj2 (sec_item s (Os s Hs) Sn Lb)). split; [|exact (proj1 Q v Gs)].
        destruct (proj1 (Forall2_at _ _ _ Fx) s Hs) as (w & Hw & Gw).
        (* the section gives one value *)
        apply (proj2 Q) in Gs, Gw. destruct Gs as (C1 & P1), Gw as (C2 & P2). replace v with w; [exact Hw|]. destruct v as [c v], w as [c' w]. cbn [projT1 projT2] in *.
        assert (c' = c) by congruence. subst c'. congruence. }
    assert (Yf : forall mf, match mfind mf (ym_files y) with Some yf => In yf fs /\ yf_mf yf = mf | None => forall yf, In yf fs -> yf_mf yf <> mf end).
    { intros mf. destruct (mfind mf (ym_files y)) as [yf|] eqn:E; [now apply Ff|]. intros yf Hy Em. rewrite (proj2 (Ff mf yf) (conj Hy Em)) in E. discriminate. }
    assert (Ys : forall mf mt v, (exists yf, mfind mf (ym_files y) = Some yf /\ mfind mt (yf_secs yf) = Some v)
        <-> exists f s, In f (x_files m) /\ In s (x_secs f) /\ f_mf f = mf /\ x_mt s = mt /\ sec_gives s v).
    { intros mf mt v. rewrite <- Sx. split.
      - intros (yf & E & Ev). apply Ff in E. destruct E as (Hy & Em). eauto.
      - intros (yf & Hy & Em & Ev). exists yf. split; [now apply Ff|exact Ev]. }
    assert (Dec : forall mf mt, (exists f s, In f (x_files m) /\ In s (x_secs f) /\ f_mf f = mf /\ x_mt s = mt)
        \/ (forall f s, In f (x_files m) -> In s (x_secs f) -> (f_mf f, x_mt s) <> (mf, mt))).
    { intros mf mt. destruct (existsb (fun f => (f_mf f =? mf) && existsb (fun s => x_mt s =? mt) (x_secs f)) (x_files m)) eqn:E.
      - left. apply existsb_exists in E. destruct E as (f & Hf & E). apply andb_true_iff in E. destruct E as (E1 & E). apply existsb_exists in E. destruct E as (s & Hs & E).
        exists f, s. split; [exact Hf|]. split; [exact Hs|]. lia.
      - right. intros f s Hf Hs K. injection K as K1 K2. rewrite <- not_true_iff_false in E. apply E. apply existsb_exists. exists f. split; [exact Hf|].
        apply andb_true_iff. split; [lia|]. apply existsb_exists. exists s. split; [exact Hs|lia]. }
    assert (Given : forall f s, In f (x_files m) -> In s (x_secs f) -> exists v, sec_gives s v).
    { intros f s Hf Hs. destruct (A1 f Hf) as (yf & Hy & Gf). destruct (Fg f yf Hf Gf) as (_ & xs & Fx & _). destruct (proj1 (Forall2_at _ _ _ Fx) s Hs) as (v & _ & Gv). eauto. }
    split; [congruence|]. split; [|split].
    - intros mf. apply bool_eq. rewrite H2. unfold ymat_hasMF, mhas. specialize (Yf mf). destruct (mfind mf (ym_files y)) as [yf|].
      + split; [reflexivity|]. intros _. destruct Yf as (Hy & <-). destruct (A2 yf Hy) as (f & Hf & Gf). exists f. split; [exact Hf|]. symmetry. exact (proj1 (Fg f yf Hf Gf)).
      + split; [|discriminate]. intros (f & Hf & <-). destruct (A1 f Hf) as (yf & Hy & Gf). exfalso. exact (Yf yf Hy (proj1 (Fg f yf Hf Gf))).
    - intros mf mt. unfold ymat_hasMFMT, yfile_has, mhas. destruct (Dec mf mt) as [(f & s & Hf & Hs & Ef' & Es')|No].
      + subst mf mt. rewrite (proj1 (H4 f s Hf Hs)). destruct (Given f s Hf Hs) as (v & Gv).
        destruct (proj2 (Ys (f_mf f) (x_mt s) v)) as (yf & E1 & E2); [eauto 7|]. now rewrite E1, E2.
      + rewrite (proj1 (H5 mf mt No)). destruct (mfind mf (ym_files y)) as [yf|] eqn:E1; [|reflexivity]. destruct (mfind mt (yf_secs yf)) as [v|] eqn:E2; [|reflexivity].
        exfalso. destruct (proj1 (Ys mf mt v)) as (f & s & Hf & Hs & K1 & K2 & _); [eauto|]. apply (No f s Hf Hs). congruence.
    - intros mf mt v. assert (Sec : ymat_section y mf mt = Val v <-> exists yf, mfind mf (ym_files y) = Some yf /\ mfind mt (yf_secs yf) = Some v).
      { unfold ymat_section, ymat_file, at_. specialize (Yf mf). destruct (mfind mf (ym_files y)) as [yf|]; cbn [obind]; [|split; [discriminate|intros (? & K & _); discriminate]].
        destruct Yf as (Hy & Em). assert (yf_mf yf <> 30).
        { destruct (A2 yf Hy) as (f & Hf & Gf). rewrite (proj1 (Fg f yf Hf Gf)). destruct (Pf f Hf) as (_ & _ & H30 & _). exact H30. }
        replace (yf_mf yf =? 30) with false by lia. unfold yfile_section, at_. destruct (mfind mt (yf_secs yf)) as [w|] eqn:Ew.
        - split; [intros K; injection K as ->; eauto|]. intros (q & K & K2). injection K as <-. congruence.
        - split; [discriminate|]. intros (q & K & K2). injection K as <-. congruence. }
      rewrite Sec, Ys. clear Sec. split.
      + intros (f & s & Hf & Hs & <- & <- & Gv). exists (tree_sec s). split; [exact (proj2 (H4 f s Hf Hs))|].
        destruct (Pf f Hf) as (Ps & _). rewrite Forall_forall in Ps. destruct (Ps s Hs) as (Sn & Lb). destruct (Of f Hf) as (_ & Os & _). rewrite Forall_forall in Os.
        apply (proj2 (proj2 (sec_item s (Os s Hs) Sn Lb))). exact Gv.
      + intros (ts & E & P). destruct (Dec mf mt) as [(f & s & Hf & Hs & <- & <-)|No]; [|rewrite (proj2 (H5 mf mt No)) in E; discriminate].
        rewrite (proj2 (H4 f s Hf Hs)) in E. injection E as <-. exists f, s. repeat (split; [assumption || reflexivity|]).
        destruct (Pf f Hf) as (Ps & _). rewrite Forall_forall in Ps. destruct (Ps s Hs) as (Sn & Lb). destruct (Of f Hf) as (_ & Os & _). rewrite Forall_forall in Os.
        apply (proj2 (proj2 (sec_item s (Os s Hs) Sn Lb))). exact P.
  Qed.

  (** ** the whole tape *)
  Lemma tend_follows u l : fst (next_line u) = l -> tend_line l -> exists dE u', (forall ln, rd_sdiv (mkst u ln) = Ok dE (mkst u' (ln + 1))) /\ not_tend dE = true.
  Proof.
    intros E (d & D & _ & _ & _ & _ & _ & _ & _ & M & _). destruct (next_line u) as [l0 u'] eqn:N. cbn [fst] in E. subst l0. exists d, u'. split; [intros ln; exact (sdiv_fwd _ _ _ _ _ N D)|]. unfold not_tend. lia.
  Qed.
  Lemma tape_gives src t ln : tape_ok src -> plain_tape src -> tape_text src t -> exists i, tpid_line (x_tpid src) i /\
    (forall yt s', rd_ytape kind class_of (mkst t ln) = Ok yt s' -> yt_id yt = i /\ Forall2 mat_gives (x_mats src) (yt_mats yt))
    /\ (forall ms, Forall2 mat_gives (x_mats src) ms -> exists s', rd_ytape kind class_of (mkst t ln) = Ok (mkytape i ms) s').
  Proof.
    intros ((i & Ti) & Nt & Om & _ & Te & _) (Hn & Pm) (u & -> & Eu). exists i. split; [exact Ti|].
    destruct (tend_follows _ _ Eu Te) as (dE & u' & Ed & Sd).
    assert (Is : Forall (fun m => exists d, item not_tend (rd_ymat kind class_of) (lines_text (mat_all m)) d) (x_mats src)).
    { rewrite Forall_forall in *. intros m Hm. exact (proj1 (mat_item m (Om m Hm) (Pm m Hm))). }
    set (g := fun m => lines_text (mat_all m)) in *. set (t1 := flat_map g (x_mats src) ++ u).
    assert (Et : lines_text (x_tpid src :: flat_map mat_all (x_mats src)) ++ u = x_tpid src ++ LF :: t1) by (rewrite lines_cons, flat_lines; reflexivity).
    rewrite Et. assert (Rt : rd_tpid (mkst (x_tpid src ++ LF :: t1) ln) = Ok i (mkst t1 (ln + 1))) by (eapply tpid_fwd; [now apply next_line_app|exact Ti]).
    destruct (starts not_tend (rd_ymat kind class_of) g _ _ _ Ed _ Is) as (d0 & t0 & E0). fold t1 in E0.
    assert (L := loop_agree not_tend (rd_ymat kind class_of) g _ _ _ Ed Sd _ Is _ _ _ (E0 (ln + 1))).
    assert (Mk : forall ms : list ymat, length ms = length (x_mats src) -> make_ytape i ms = Val (mkytape i ms)).
    { intros ms El. unfold make_ytape. rewrite El. unfold len in Hn. rewrite RecordRT.i32_small by (change (2 ^ 31) with 2147483648 in Hn; lia). replace (_ =? 0) with false by lia. reflexivity. }
    split.
    - intros yt s' E. unfold rd_ytape in E. apply on_err_ok in E. apply bind_ok in E. destruct E as (i' & s1 & E1 & E). rewrite Rt in E1. injection E1 as <- <-.
      apply bind_ok in E. destruct E as (b & s2 & Eb & E). injection Eb as <- <-. apply bind_ok in E. destruct E as (ms & s3 & El & E). unfold rd_ymats in El.
      apply bind_ok in El. destruct El as (d & s4 & Ed' & El). rewrite E0 in Ed'. injection Ed' as <- <-. apply (proj1 (L _)) in El. apply lift_ok in E. destruct E as (E & _).
      rewrite Mk in E by (symmetry; exact (F2_length _ _ _ El)). injection E as <-. split; [reflexivity|exact El].
    - intros ms F. destruct (proj2 (L (Datatypes.S (Datatypes.S (length t1)))) ms) as (k & K).
      { assert (H := items_len not_tend (rd_ymat kind class_of) g _ Is). unfold t1. rewrite app_length. unfold g in H |- *. lia. }
      { exact F. }
      exists (mkst u' k). unfold rd_ytape. apply on_err_ok. unfold bind at 1. rewrite Rt. unfold get_pos, bind at 1. cbn [buf]. unfold bind at 1. unfold rd_ymats, bind at 1. rewrite E0, K.
      unfold lift. rewrite (Mk ms) by (symmetry; exact (F2_length _ _ _ F)). reflexivity.
  Qed.

  (** every section of a file, or of a material, parses: then the file or the material does *)
  Lemma file_all_parse f : file_ok f -> plain_file f -> (forall s, In s (x_secs f) -> exists y, sec_gives s y) -> exists y, file_gives f y.
  Proof.
    intros Of Pf Hsec. destruct (list_ex sec_gives (x_secs f)) as (xs & Fx); [apply Forall_forall; exact Hsec|].
    pose proof Of as (_ & Os & _ & Nd & _). destruct Pf as (Ps & Pf). assert (Pf' := conj Ps Pf : plain_file f). rewrite Forall_forall in Os, Ps.
    assert (Ek : map y_mt xs = map x_mt (x_secs f)).
    { clear - Fx Os Ps T. induction Fx as [|s y ss xs G _ IH]; [reflexivity|]. cbn [map]. destruct (Ps s (or_introl eq_refl)) as (Sn & Lb).
      rewrite (proj1 (proj2 (sec_item s (Os s (or_introl eq_refl)) Sn Lb)) y G), IH; [reflexivity|intros; apply Ps; now right|intros; apply Os; now right]. }
    destruct (fill_some y_mt xs ltac:(rewrite Ek; exact Nd)) as (r & Er). exists (mkyfile (f_mf f) r). apply (proj2 (file_item f Of Pf')). split; [reflexivity|]. eauto.
  Qed.
  Lemma mat_all_parse m : mat_ok m -> plain_mat m -> (forall f s, In f (x_files m) -> In s (x_secs f) -> exists y, sec_gives s y) -> exists y, mat_gives m y.
  Proof.
    intros Om Pm Hsec. pose proof Om as (_ & Of & _ & Nf & _). pose proof Pm as (Pf & _). rewrite Forall_forall in Of, Pf.
    destruct (list_ex file_gives (x_files m)) as (fs & Ff).
    - apply Forall_forall. intros f Hf. apply (file_all_parse f (Of f Hf) (Pf f Hf)). intros s Hs. exact (Hsec f s Hf Hs).
    - assert (Ek : map yf_mf fs = map f_mf (x_files m)).
      { clear - Ff Of Pf T. induction Ff as [|f y ss xs G _ IH]; [reflexivity|]. cbn [map].
        apply (proj2 (file_item f (Of f (or_introl eq_refl)) (Pf f (or_introl eq_refl)))) in G. rewrite (proj1 G), IH; [reflexivity|intros; apply Of; now right|intros; apply Pf; now right]. }
      destruct (fill_some yf_mf fs ltac:(rewrite Ek; exact Nf)) as (r & Er). exists (mkymat (m_mat m) r). apply (proj2 (mat_item m Om Pm)). split; [reflexivity|]. eauto.
  Qed.
  Lemma mat_parse_iff m x : mat_ok m -> plain_mat m -> holds m x ->
    ((exists y, mat_gives m y) <-> forall mf mt s, mat_section x mf mt = Val s -> exists y, parses_as s y).
  Proof.
    intros Om Pm Hh. split.
    - intros (y & Gy) mf mt s Es. assert (Sm := same_holds m x y Om Pm Hh Gy). destruct Sm as (_ & _ & Hb & Hv).
      assert (Hs : mat_hasMFMT x mf mt = true).
      { clear - Es. unfold mat_section, mat_hasMFMT, mat_file, file_section, file_has, at_, mhas in *. destruct (mfind mf (tm_files x)) as [f|]; [|discriminate]. cbn [obind] in Es. destruct (mfind mt (tf_secs f)); [reflexivity|discriminate]. }
      rewrite Hb in Hs. unfold ymat_hasMFMT, yfile_has, mhas in Hs. destruct (mfind mf (ym_files y)) as [yf|] eqn:Ey; [|discriminate]. destruct (mfind mt (yf_secs yf)) as [v|] eqn:Ev; [|discriminate].
      assert (Y : ymat_section y mf mt = Val v).
      { unfold ymat_section, ymat_file, at_. rewrite Ey. cbn [obind]. destruct (mat_item m Om Pm) as (_ & Gm). apply Gm in Gy. destruct Gy as (_ & fs & F2 & Ef2).
        apply (fill_find _ _ _ Ef2) in Ey. destruct Ey as (Hyf & Emf). destruct (proj2 (Forall2_at _ _ _ F2) yf Hyf) as (f & Hf & Gf).
        pose proof Om as (_ & Of & _). destruct Pm as (Pf & _). rewrite Forall_forall in Of, Pf. apply (proj2 (file_item f (Of f Hf) (Pf f Hf))) in Gf. destruct Gf as (Ef3 & _).
        destruct (Pf f Hf) as (_ & _ & H30 & _). replace (yf_mf yf =? 30) with false by lia. unfold yfile_section, at_. now rewrite Ev. }
      apply Hv in Y. destruct Y as (s1 & Es1 & P). rewrite Es in Es1. injection Es1 as <-. eauto.
    - intros All. apply mat_all_parse; [exact Om|exact Pm|]. intros f s Hf Hs. destruct Hh as (_ & _ & _ & H4 & _). destruct (All _ _ _ (proj2 (H4 f s Hf Hs))) as (y & P). exists y.
      pose proof Om as (_ & Of & _). destruct Pm as (Pf & _). rewrite Forall_forall in Of, Pf. destruct (Of f Hf) as (_ & Os & _). destruct (Pf f Hf) as (Ps & _). rewrite Forall_forall in Os, Ps.
      destruct (Ps s Hs) as (Sn & Lb). apply (proj2 (proj2 (sec_item s (Os s Hs) Sn Lb))). exact P.
  Qed.

  (** the typed reader of the tape succeeds exactly when every section of the tree parses *)
  Theorem C62_accepted : forall src t ln, tape_ok src -> plain_tape src -> tape_text src t ->
    exists T s, index_tape t = Ok T s
    /\ ((exists yt s', rd_ytape kind class_of (mkst t ln) = Ok yt s')
        <-> forall mat l x mf mt s, tape_material T mat = Val l -> In x l -> mat_section x mf mt = Val s -> exists y, parses_as s y).
  Proof.
    intros src t ln Ot Pt Ht. destruct (C19_lookups src t Ot Ht) as (T0 & s0 & ET & Look). exists T0, s0. split; [exact ET|].
    destruct (tape_gives src t ln Ot Pt Ht) as (i & _ & G1 & G2). pose proof Ot as (_ & _ & Om & _). pose proof Pt as (_ & Pm). rewrite Forall_forall in Om, Pm. split.
    - intros (yt & s' & E) mat l x mf mt s El Hx Es. destruct (G1 _ _ E) as (_ & F). destruct (Look mat) as (_ & L1 & L2). cbv zeta in *.
      destruct (filter (fun m => m_mat m =? mat) (x_mats src)) as [|m0 ms] eqn:Ef; [rewrite (proj2 (L2 eq_refl)) in El; discriminate|].
      destruct (L1 ltac:(discriminate)) as (_ & l' & El' & Fh). rewrite El in El'. injection El' as <-. destruct (proj2 (Forall2_at _ _ _ Fh) x Hx) as (m & Hm & Hh).
      rewrite <- Ef in Hm. apply filter_In in Hm. destruct Hm as (Hm & _). destruct (proj1 (Forall2_at _ _ _ F) m Hm) as (y & Hy & Gy).
      apply (proj1 (mat_parse_iff m x (Om m Hm) (Pm m Hm) Hh) ltac:(eauto) _ _ _ Es).
    - intros All. destruct (list_ex mat_gives (x_mats src)) as (ms & F).
      + apply Forall_forall. intros m Hm. destruct (Look (m_mat m)) as (_ & L1 & _). cbv zeta in L1.
        assert (Hin : In m (filter (fun m' => m_mat m' =? m_mat m) (x_mats src))) by (apply filter_In; split; [exact Hm|lia]).
        destruct L1 as (_ & l & El & Fh); [intros K; rewrite K in Hin; destruct Hin|]. destruct (proj1 (Forall2_at _ _ _ Fh) m Hin) as (x & Hx & Hh).
        apply (proj2 (mat_parse_iff m x (Om m Hm) (Pm m Hm) Hh)). intros mf mt s Es. exact (All _ _ _ _ _ _ El Hx Es).
      + destruct (G2 ms F) as (s' & E). eauto.
  Qed.

  (** then it holds the same materials, in the same order, with the same files and sections *)
  Theorem C62_agree : forall src t ln, tape_ok src -> plain_tape src -> tape_text src t ->
    exists T s, index_tape t = Ok T s
    /\ forall yt s', rd_ytape kind class_of (mkst t ln) = Ok yt s' ->
      tt_tpid T = Some (yt_id yt) /\ len (yt_mats yt) = len (x_mats src)
      /\ forall mat, tape_has T mat = ytape_has yt mat /\ tape_number T mat = len (ytape_material yt mat)
        /\ (tape_has T mat = true -> exists l, tape_material T mat = Val l /\ Forall2 same_material l (ytape_material yt mat)).
  Proof.
    intros src t ln Ot Pt Ht. destruct (C19_lookups src t Ot Ht) as (T0 & s0 & ET & Look). exists T0, s0. split; [exact ET|]. intros yt s' E.
    destruct (tape_gives src t ln Ot Pt Ht) as (i & Ti & G1 & _). destruct (G1 _ _ E) as (Ei & F). clear G1 E. pose proof Ot as (_ & _ & Om & _). pose proof Pt as (_ & Pm).
    assert (Fl : forall mat, Forall2 mat_gives (filter (fun m => m_mat m =? mat) (x_mats src)) (ytape_material yt mat)).
    { intros mat. unfold ytape_material. clear - F Om Pm T. induction F as [|m y ms ys G F IH]; [constructor|]. inversion Om; subst. inversion Pm; subst. cbn [filter].
      assert (G' := G). apply (proj2 (mat_item m ltac:(assumption) ltac:(assumption))) in G'. rewrite (proj1 G'). destruct (m_mat m =? mat); [constructor|]; auto. }
    assert (Id : tt_tpid T0 = Some i).
    { destruct (proj1 (index_tape_grammar t T0)) as (src' & i' & Ot' & Ht' & Ti' & ->); [eauto|]. cbn.
      destruct Ht as (u & -> & Eu), Ht' as (u' & Et & Eu'). destruct Ot as (_ & N1 & _), Ot' as (_ & N2 & _). rewrite !lines_cons in Et. apply lf_split in Et; [|assumption..]. destruct Et as (Et & _).
      rewrite Et in Ti. destruct Ti as (A1 & B1), Ti' as (A2 & B2). destruct (carries_fun _ _ _ _ _ _ _ B1 B2) as (K & _). destruct i, i'. cbn in *. congruence. }
    split; [congruence|]. split; [unfold len; now rewrite (F2_length _ _ _ F)|]. intros mat. specialize (Fl mat). destruct (Look mat) as (L0 & L1 & L2). cbv zeta in *.
    assert (Ln := F2_length _ _ _ Fl). unfold ytape_has, len. rewrite L0. split; [|split].
    - destruct (filter (fun m => m_mat m =? mat) (x_mats src)) as [|m0 ms] eqn:Ef.
      + rewrite (proj1 (L2 eq_refl)). rewrite <- Ln. reflexivity.
      + rewrite (proj1 (L1 ltac:(discriminate))). rewrite <- Ln. cbn [length]. symmetry. lia.
    - now rewrite Ln.
    - intros Hh. destruct (filter (fun m => m_mat m =? mat) (x_mats src)) as [|m0 ms] eqn:Ef; [rewrite (proj1 (L2 eq_refl)) in Hh; discriminate|].
      destruct (L1 ltac:(discriminate)) as (_ & l & El & Fh). exists l. split; [exact El|]. rewrite <- Ef in *.
      assert (Fo : Forall (fun m => mat_ok m /\ plain_mat m) (filter (fun m => m_mat m =? mat) (x_mats src))).
      { apply Forall_forall. intros m Hm. apply filter_In in Hm. rewrite Forall_forall in Om, Pm. split; [apply Om|apply Pm]; tauto. }
      clear - Fh Fl Fo T. revert l Fh. induction Fl as [|m y ms ys G _ IH]; intros l Fh; inversion Fh; subst; [constructor|]. inversion Fo as [|? ? (O & P) Fo']; subst.
      constructor; [eapply same_holds; eassumption|]. auto.
  Qed.

  (** every well-formed tape, printed, is such a text (classes that read their own lines only) *)
  Lemma plain_printed mat f s : good_yfile code body kind rep inv f -> (forall mt c, class_of (yf_mf f) mt = Some c -> section_rt (kind c) (rep c) (inv c) \/ section_long (kind c)) ->
    (forall e, In e (x_secs s) -> (66 <= length (x_last e))%nat) ->
    file_printed _ _ kind class_of mat f s -> plain_file s.
  Proof.
    intros G Hc HL (_ & Ef & (Ne & Os & Om & _) & (Cs & Ce & _) & _ & d & _ & D2 & _ & (l & t1 & Et & Nl & Dl & R)).
    destruct (known_file _ _ _ _ _ _ T f G) as (_ & H30). destruct (x_secs s) as [|s0 r] eqn:Es; [congruence|].
    split; [|split; [now rewrite Ce|split; [congruence|]]].
    - rewrite Es. rewrite Forall_forall in *. intros x Hx. split; [exact (Cs x Hx)|]. intros c E. rewrite (Om x Hx), Ef in E. destruct (Hc _ _ E) as [K|K]; [now left|]. right. split; [exact K|]. apply HL. exact Hx.
    - rewrite Ef. intros E8. cbv zeta. rewrite Es. cbn [hd].
      assert (Hs : smt d = x_mt s0).
      { destruct (Forall_inv Os) as (H & _ & _ & _ & N). apply head_iff in H. destruct H as (d' & D' & _ & _ & _ & E'). apply Forall_inv in N.
        unfold file_all in Et. rewrite Es in Et. cbn [flat_map sec_all] in Et. unfold sec_all at 1, sec_lines in Et. cbn [app] in Et. rewrite lines_cons' in Et. apply lf_split in Et; [|assumption..].
        destruct Et as (Et & _). rewrite Et in D'. now rewrite (division_fun _ _ _ Dl D'). }
      rewrite <- Hs. specialize (R [] 0). unfold rd_any_file in R. rewrite D2, E8 in R. change (known_mf 8) with true in R. cbv iota in R.
      destruct (Z.eqb_spec (smt d) 454); [now left|]. destruct (Z.eqb_spec (smt d) 457); [now right; left|]. destruct (Z.eqb_spec (smt d) 459); [now right; right|].
      exfalso. unfold rd_yfile in R. cbn [Z.eqb Pos.eqb] in R. replace (true && negb ((smt d =? 454) || (smt d =? 457) || (smt d =? 459))) with true in R by lia.
      apply on_err_ok in R. apply bind_ok in R. destruct R as (b & s1 & _ & R). apply bind_ok in R. destruct R as (d' & s2 & _ & R). apply bind_ok in R. destruct R as ([] & s3 & _ & R).
      injection R as <- _. destruct G as (G & _). apply G. reflexivity.
  Qed.
  Theorem C62_printed : forall yt, good_ytape code body kind rep inv yt ->
    (forall m f mt c, In m (yt_mats yt) -> In f (map snd (ym_files m)) -> class_of (yf_mf f) mt = Some c -> section_rt (kind c) (rep c) (inv c) \/ section_long (kind c)) ->
    exists u src, pr_ytape kind yt = Val u /\ tape_ok src /\ plain_tape src /\ tape_text src u
      /\ forall s g, In s (x_mats src) -> In g (x_files s) -> (exists m f, In m (yt_mats yt) /\ In f (map snd (ym_files m)) /\ f_mf g = yf_mf f)
        /\ forall e, In e (x_secs g) -> (66 <= length (x_last e))%nat.
  Proof.
    intros yt (Hl & Hn & _ & Ne & Hlen & Gs) Hc.
    destruct (list_ex (fun m s => plain_mat s /\ mat_printed _ _ kind class_of m s /\ forall g, In g (x_files s) -> (exists f, In f (map snd (ym_files m)) /\ f_mf g = yf_mf f) /\ forall e, In e (x_secs g) -> (66 <= length (x_last e))%nat) (yt_mats yt)) as (ss & F).
    { apply Forall_forall. intros m Hm. assert (G := proj1 (Forall_forall _ _) Gs m Hm). destruct (printed_mat3 _ _ _ _ _ _ T m G) as (s & Fp & Fs & H). exists s.
      assert (HL : forall g, In g (x_files s) -> forall e, In e (x_secs g) -> (66 <= length (x_last e))%nat).
      { intros g Hg e He. destruct (proj2 (Forall2_at _ _ _ Fs) g Hg) as (p & Hp & Hq). destruct (proj2 (Forall2_at _ _ _ Hq) e He) as (q & _ & (_ & _ & _ & (_ & ->) & _)).
        unfold SecSpec.send_line. rewrite app_length, blanks_length. lia. }
      split; [|split; [exact H|]]; cycle 1.
      { intros g Hg. split; [|exact (HL g Hg)]. destruct (proj2 (Forall2_at _ _ _ Fp) g Hg) as (p & Hp & Hq). exists (snd p). split; [exact (in_map snd _ _ Hp)|]. apply Hq. }
      destruct H as (Em & _ & (_ & Ee & _) & _). destruct G as (Hp & _ & _ & Gf). split; [|split; [now rewrite Ee|lia]].
      assert (Hc' : forall f, In f (map snd (ym_files m)) -> forall mt c, class_of (yf_mf f) mt = Some c -> section_rt (kind c) (rep c) (inv c) \/ section_long (kind c)) by (intros f Hf mt c; exact (Hc m f mt c Hm Hf)).
      clear - Fp Gf Hc' HL T. induction Fp as [|p f l r H Fp IH]; constructor.
      - apply (plain_printed (ym_mat m) (snd p)); [apply (Forall_inv Gf)|apply Hc'; now left|apply HL; now left|exact H].
      - apply IH; [exact (Forall_inv_tail Gf)|intros g Hg; apply HL; now right|]. intros g Hg. apply Hc'. now right. }
    assert (Po : oconcat (pr_ymat kind) (yt_mats yt) = Val (flat_map (fun s => lines_text (mat_all s)) ss)).
    { clear -F. unfold oconcat. induction F as [|a b l r H _ IH]; [reflexivity|]. cbn [fold_right flat_map]. rewrite IH. destruct H as (_ & (_ & _ & _ & H & _) & _). rewrite H. reflexivity. }
    assert (Ci : in_cols 4 (-1)) by (unfold in_cols; cbn; lia). assert (Ce1 := canon_noLF (-1) Ci). assert (Ce2 := canon_div (-1) Ci ltac:(lia)).
    set (idl := tptext (yt_id yt) ++ right_justified 4 0 ++ right_justified 2 0 ++ right_justified 3 0 ++ blanks 5).
    assert (Ni : noLF idl).
    { unfold idl. apply noLF_app. split; [exact Hn|]. apply no_lf_ok. vm_compute. reflexivity. }
    assert (Ep : pr_tpid (yt_id yt) 0 0 0 = idl ++ [LF]) by (unfold pr_tpid, idl; rewrite lj_self, canon_tail0, <- !app_assoc by exact Hl; reflexivity).
    assert (Ti : exists i, tpid_line idl i).
    { assert (Ht := reads_tpid (yt_id yt) 0 Hl Hn ltac:(vm_compute; reflexivity) [] 0). rewrite Ep, app_nil_r in Ht. apply tpid_inv in Ht.
      destruct Ht as (l & b & E & H & _). assert (X := next_line_app idl [] Ni). rewrite E in X. injection X as -> _. eauto. }
    exists ((idl ++ [LF]) ++ flat_map (fun s => lines_text (mat_all s)) ss ++ (canonical_end (-1) ++ [LF])), (mkts idl ss (canonical_end (-1))).
    split; [|split; [|split; [|split]]].
    - unfold pr_ytape. rewrite Po, Ep. change (pr_sdiv TEND) with (pr_sdiv (mksdiv zero_cont (-1) 0 0)). rewrite pr_end by exact Ci. cbn [oapp obind]. reflexivity.
    - unfold tape_ok. cbn [x_tpid x_mats x_tend]. split; [exact Ti|]. split; [exact Ni|]. split; [|split; [|split]].
      + clear - F. induction F as [|m s l r H _ IH]; constructor; [apply H|exact IH].
      + assert (Fe : Forall (fun s => x_mends s <> []) ss).
        { clear - F. induction F as [|m s l r H _ IH]; constructor; [|exact IH]. destruct H as (_ & (_ & _ & (_ & E & _) & _) & _). rewrite E. discriminate. }
        clear - Fe. induction Fe as [|s l H Fe IH]; [exact Logic.I|]. destruct l as [|s' l]; [exact Logic.I|]. split; [intros E; congruence|exact IH].
      + exists (mksdiv zero_cont (-1) 0 0). split; [exact Ce2|]. cbn. auto 10.
      + exact Ce1.
    - split; cbn [x_mats].
      + unfold len in *. rewrite <- (F2_length _ _ _ F). destruct (yt_mats yt); [congruence|cbn [length] in *; lia].
      + clear - F. induction F as [|m s l r H _ IH]; constructor; [apply H|exact IH].
    - exists (canonical_end (-1) ++ [LF]). cbn [x_tpid x_mats x_tend]. split; [|rewrite next_line_app by exact Ce1; reflexivity].
      rewrite lines_cons', flat_lines, <- !app_assoc. reflexivity.
    - cbn [x_mats]. intros s g Hs Hg. destruct (proj2 (Forall2_at _ _ _ F) s Hs) as (m & Hm & (_ & _ & Hf)). destruct (Hf g Hg) as ((f & K) & HL). split; [|exact HL]. exists m, f. split; [exact Hm|exact K].
  Qed.
End Classes.
