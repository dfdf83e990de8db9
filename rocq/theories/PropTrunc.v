(** PropTrunc.v -- C09 and C41 for sections: the lines a section is read from, and sections cut short. *)
From Coq Require Import ZifyBool ZifyNat.
From Verif Require Import Base Disco DiscoProofs Records RecordProofs RecordSound Spec LineFacts Sections SecSpec SectionProofs SecLong
  Classes PropClasses PropAgree2 Sec32Local TypedSpec Sec1 ExKit.
Open Scope Z_scope.

(** every line of the text that is ended by a newline has at least 66 columns *)
Definition long_lines (t : text) : Prop := forall i, drop_lines i t <> nth_line t i -> (66 <= length (nth_line t i))%nat.

(** ** a text cut after j characters *)
Lemma nth_line_nil i : nth_line [] i = [].
Proof. induction i as [|i IH]; [reflexivity|exact IH]. Qed.
Lemma lines_in_step t : t <> [] -> lines_in t = S (lines_in (snd (next_line t))).
Proof.
  induction t as [|c t IH]; intros H; [congruence|]. cbn [lines_in next_line]. destruct (Ascii.eqb c LF) eqn:E; [reflexivity|].
  destruct t as [|d t]; [reflexivity|]. rewrite IH by discriminate. now destruct (next_line (d :: t)).
Qed.
Lemma lines_in_last t : next_line t = (t, []) \/ t <> fst (next_line t).
Proof.
  induction t as [|c t IH]; [left; reflexivity|]. cbn [next_line]. destruct (Ascii.eqb c LF); [right; discriminate|].
  destruct (next_line t) as [l r]. cbn [fst] in *. destruct IH as [E|E]; [left; injection E as -> ->; reflexivity|right; intros X; apply E; injection X; auto].
Qed.
Lemma cut_next t : forall j, firstn j t <> fst (next_line (firstn j t)) ->
  fst (next_line (firstn j t)) = fst (next_line t) /\ exists j', snd (next_line (firstn j t)) = firstn j' (snd (next_line t)).
Proof.
  induction t as [|c t IH]; intros j H; [rewrite firstn_nil in *; cbn in H; congruence|].
  destruct j as [|j]; [cbn in H; congruence|]. cbn [firstn next_line] in *. destruct (Ascii.eqb c LF) eqn:E.
  - split; [reflexivity|]. exists j. reflexivity.
  - specialize (IH j). destruct (next_line (firstn j t)) as [l r], (next_line t) as [l' r']. cbn [fst snd] in *.
    destruct IH as (E1 & j' & E2); [congruence|]. subst. eauto.
Qed.
Lemma cut_ended t : forall i j, drop_lines i (firstn j t) <> nth_line (firstn j t) i ->
  nth_line (firstn j t) i = nth_line t i /\ drop_lines i t <> nth_line t i.
Proof.
  intros i. revert t. induction i as [|i IH]; intros t j H.
  - cbn [drop_lines nth_line] in *. destruct (cut_next t j H) as (E1 & j' & E2). split; [exact E1|].
    destruct (lines_in_last t) as [K|K]; [|exact K]. exfalso. rewrite K in E1. cbn [fst] in E1. apply H.
    pose proof (firstn_skipn j t) as S. apply (f_equal (@length _)) in S. rewrite app_length in S.
    assert (firstn j t = t); [|congruence]. rewrite <- (firstn_skipn j t) at 2.
    assert (length (fst (next_line (firstn j t))) <= length (firstn j t))%nat.
    { destruct (next_line (firstn j t)) as [l r] eqn:N. apply next_line_cases in N. cbn [fst]. destruct N as [N|[N _]]; rewrite N; [rewrite app_length|]; lia. }
    rewrite E1 in H0. destruct (skipn j t); [now rewrite app_nil_r|cbn [length] in S; lia].
  - cbn [drop_lines nth_line] in *. destruct (lines_in_last (firstn j t)) as [K|K].
    + rewrite K in H. cbn [snd] in H. exfalso. apply H. rewrite nth_line_nil. clear. induction i; [reflexivity|]. cbn. exact IHi.
    + destruct (cut_next t j K) as (E1 & j' & E2). rewrite E2 in *. exact (IH _ _ H).
Qed.
Lemma before_last t : forall i, (S i < lines_in t)%nat -> drop_lines i t <> nth_line t i.
Proof.
  intros i. revert t. induction i as [|i IH]; intros t H; cbn [drop_lines nth_line].
  - destruct (lines_in_last t) as [K|K]; [|exact K]. exfalso. destruct t as [|c t]; [cbn in H; lia|].
    rewrite lines_in_step, K in H by discriminate. cbn in H. lia.
  - apply IH. destruct t as [|c t]; [cbn in H; lia|]. rewrite lines_in_step in H by discriminate. lia.
Qed.
Lemma after_last t : forall i, (lines_in t <= i)%nat -> nth_line t i = [].
Proof.
  intros i. revert t. induction i as [|i IH]; intros t H; (destruct t as [|c t]; [apply nth_line_nil|]); rewrite lines_in_step in H by discriminate; [lia|].
  cbn [nth_line]. apply IH. lia.
Qed.
Lemma cut_line t i j : (S i < lines_in (firstn j t))%nat -> nth_line (firstn j t) i = nth_line t i.
Proof. intros H. apply (cut_ended t i j). now apply before_last. Qed.
Lemma no_mf mat mf mt : carries mat mf mt [] -> mf = 0.
Proof. intros (_ & E & _). rewrite col_nil in E. vm_compute in E. congruence. Qed.

(** ** C09: the lines of a section *)
Lemma lib_body c h mat s x s' : Sections.rd_section (skind_of c) h mat s = Ok x s' -> (c = K32_151 -> long_lines (buf s)) ->
  exists s1, consumed (carries (k_rmat (skind_of c) h mat) (k_mf (skind_of c)) (k_rmt (skind_of c) h)) s s1
    /\ consumed (ends_section mat (k_mf (skind_of c))) s1 s' /\ line s' = line s1 + 1
    /\ let n := line s' - line s - 1 in
       forall t ln, (forall i, Z.of_nat i < n -> nth_line t i = nth_line (buf s) i) ->
       k_read (skind_of c) h (k_rmat (skind_of c) h mat) (k_mf (skind_of c)) (k_rmt (skind_of c) h) (mkst t ln)
       = Ok (s_body x) (mkst (drop_lines (Z.to_nat n) t) (ln + n)).
Proof.
  intros E L. assert (D : c = K32_151 \/ c <> K32_151) by (destruct c; (now left) || (right; discriminate)). destruct D as [->|D].
  - destruct (long_32 _ _ _ _ _ E) as [(s1 & C1 & C2 & C3 & _ & C4)|(i & _ & Sh & En)]; [eauto 6|exfalso]. specialize (L eq_refl i En). lia.
  - pose proof (lib_rt c D) as K. destruct (sc_sound _ _ _ K _ _ _ _ _ E) as (_ & _ & _ & _ & _ & _ & _ & _ & _ & s1 & C1 & C2 & C3).
    exists s1. do 3 (split; [assumption|]). exact (sc_body _ _ _ K _ _ _ _ _ E).
Qed.
Theorem C09_sections : forall c h mat s x s', Sections.rd_section (skind_of c) h mat s = Ok x s' -> (c = K32_151 -> long_lines (buf s)) ->
  exists s1, consumed (carries (k_rmat (skind_of c) h mat) (k_mf (skind_of c)) (k_rmt (skind_of c) h)) s s1
    /\ consumed (ends_section mat (k_mf (skind_of c))) s1 s' /\ line s' = line s1 + 1.
Proof. intros c h mat s x s' E L. destruct (lib_body c h mat s x s' E L) as (s1 & C1 & C2 & C3 & _). eauto. Qed.

(** ** C41: a section cut before its SEND line *)
Lemma read_body {B} (k : skind B) h mat s x s' : Sections.rd_section k h mat s = Ok x s' -> exists s1,
  k_read k h (k_rmat k h mat) (k_mf k) (k_rmt k h) s = Ok (s_body x) s1 /\ line s' = line s1 + 1.
Proof. intros E. destruct (PropSec1.C40_closed_by_SEND _ _ _ _ _ _ _ E) as (s1 & E1 & _ & E2). eauto. Qed.
Lemma long_cut t j : long_lines t -> long_lines (firstn j t).
Proof. intros L i H. destruct (cut_ended t i j H) as (-> & K). exact (L i K). Qed.
Theorem C41_section : forall c h mat s x s', Sections.rd_section (skind_of c) h mat s = Ok x s' -> (c = K32_151 -> long_lines (buf s)) ->
  forall j ln, Z.of_nat (lines_in (firstn j (buf s))) < line s' - line s ->
  forall y r, Sections.rd_section (skind_of c) h mat (mkst (firstn j (buf s)) ln) <> Ok y r.
Proof.
  intros c h mat s x s' E L j ln Hj y r E'. set (q := firstn j (buf s)) in *.
  destruct (lib_body _ _ _ _ _ _ E' (fun H => long_cut _ j (L H))) as (r1 & (a & B1 & L1 & _) & (b & B2 & L2 & P2) & L3 & Q). cbn [buf line] in *.
  assert (b = 1%nat) by lia. subst b. specialize (P2 0%nat ltac:(lia)). rewrite B1, nth_after, Nat.add_0_r in P2. destruct P2 as (Cq & _).
  destruct (le_lt_dec (lines_in q) a) as [H|H].
  { rewrite (after_last q a H) in Cq. apply no_mf in Cq. destruct (tk_mf _ _ _ _ _ _ lib_table c) as (K & _). lia. }
  destruct (read_body _ _ _ _ _ _ E) as (s1 & R & Ls). destruct s as [t l0]. cbn [buf line] in *. cbv zeta in Q.
  specialize (Q t l0). rewrite R in Q. assert (K : forall i, Z.of_nat i < line r - ln - 1 -> nth_line t i = nth_line q i).
  { intros i Hi. symmetry. apply cut_line. fold q. lia. }
  specialize (Q K). injection Q as _ Q. subst s1. cbn [line] in Ls. lia.
Qed.
(** [line] counts each line once; the counter of the library counts one line of each range of 32/151 twice
    (C56_line_counter). The same with the HEAD: *)
Lemma sdiv_line s d s' : rd_sdiv s = Ok d s' -> buf s' = snd (next_line (buf s)) /\ line s' = line s + 1.
Proof. intros E. destruct (rd_sdiv_cols _ _ _ E) as (l & b & N & _ & _ & B & Hl). rewrite N. auto. Qed.
Lemma sdiv_same s d s' t ln : rd_sdiv s = Ok d s' -> fst (next_line t) = fst (next_line (buf s)) -> rd_sdiv (mkst t ln) = Ok d (mkst (snd (next_line t)) (ln + 1)).
Proof.
  intros E H. destruct (consumes_sdiv _ _ _ E) as (ls & S & Hl & _ & D). destruct (sdiv_line _ _ _ E) as (_ & L1).
  assert (length ls = 1%nat) by lia. destruct ls as [|l [|? ?]]; try discriminate. cbn [splits] in S. destruct S as (b & N & _). rewrite N in H. cbn [fst] in H.
  replace (ln + 1) with (ln + Z.of_nat (length [l])) by reflexivity. apply D. cbn [splits]. exists (snd (next_line t)). split; [|reflexivity]. destruct (next_line t). cbn [fst snd] in *. now subst.
Qed.
Theorem C41_parse : forall c mat s x s', parse_section (skind_of c) mat s = Ok x s' -> (c = K32_151 -> long_lines (buf s)) ->
  forall j ln, Z.of_nat (lines_in (firstn j (buf s))) < line s' - line s ->
  forall y r, parse_section (skind_of c) mat (mkst (firstn j (buf s)) ln) <> Ok y r.
Proof.
  intros c mat s x s' E L j ln Hj y r E'. unfold parse_section in E, E'. apply bind_ok in E. destruct E as (h & s1 & E1 & E).
  apply bind_ok in E'. destruct E' as (h' & r1 & E1' & E'). destruct (sdiv_line _ _ _ E1) as (Bs & Ls), (sdiv_line _ _ _ E1') as (Br & Lr). cbn [buf line] in *.
  assert (Lt : forall t, long_lines t -> long_lines (snd (next_line t))) by (intros t H i K; exact (H (S i) K)).
  destruct (lines_in_last (firstn j (buf s))) as [K|K].
  - rewrite K in Br. cbn [snd] in Br.
    destruct (lib_body _ _ _ _ _ _ E') as (r2 & (a & B1 & L1 & _) & (b & B2 & L2 & P2) & L3 & _).
    { intros _ i H. rewrite Br in *. exfalso. apply H. rewrite nth_line_nil. clear. induction i; [reflexivity|]. cbn. exact IHi. }
    assert (b = 1%nat) by lia. subst b. specialize (P2 0%nat ltac:(lia)). rewrite B1, nth_after, Br, nth_line_nil in P2. destruct P2 as (Cq & _).
    apply no_mf in Cq. destruct (tk_mf _ _ _ _ _ _ lib_table c) as (M & _). lia.
  - destruct (cut_next _ _ K) as (F1 & j' & F2). rewrite (sdiv_same _ _ _ _ ln E1 F1) in E1'. injection E1' as -> Er. subst r1. cbn [buf line] in *. clear Br Lr.
    rewrite F2, <- Bs in E'. revert E'. apply (C41_section c h' mat s1 x s' E); [intros H; rewrite Bs; apply Lt, L, H|].
    rewrite Bs, <- F2. rewrite lines_in_step in Hj by (intros X; rewrite X in K; apply K; reflexivity). lia.
Qed.
(** ... and rejected, with a std::exception, where reading is defined *)
Theorem C41_rejected : forall c h mat s x s', Sections.rd_section (skind_of c) h mat s = Ok x s' -> (c = K32_151 -> long_lines (buf s)) ->
  int32 (round_int (c1 (sbase h))) -> forall j ln, lib_guard (k_mf (skind_of c)) h (firstn j (buf s)) ->
  Z.of_nat (lines_in (firstn j (buf s))) < line s' - line s -> rejected (Sections.rd_section (skind_of c) h mat (mkst (firstn j (buf s)) ln)).
Proof.
  intros c h mat s x s' E L Hz j ln G Hj. assert (N := C41_section c h mat s x s' E L j ln Hj). assert (D := lib_safe c h mat (mkst (firstn j (buf s)) ln) Hz G).
  destruct (Sections.rd_section (skind_of c) h mat (mkst (firstn j (buf s)) ln)) as [y r|e r|]; [destruct (N y r eq_refl)|exists e, r; auto|destruct D].
Qed.
(** a section of file 3: four lines, then SEND; every cut before SEND is refused,
    a cut within MT of the SEND line is not *)
Definition ex_text : text := match pr_section sec_3 (mksect 92235 PropRecords.r_pi 102 (xtab1 0 3)) 9228 3 with Val t => t | _ => [] end.
Example C41_section_example :
  (exists x s', parse_section (skind_of K3) 9228 (mkst ex_text 0) = Ok x s' /\ line s' = 5)
  /\ lines_in (firstn 300 ex_text) = 4%nat /\ lines_in ex_text = 5%nat
  /\ (exists x s', parse_section (skind_of K3) 9228 (mkst (firstn (length ex_text - 9) ex_text) 0) = Ok x s')
  /\ exists e s', parse_section (skind_of K3) 9228 (mkst (firstn (length ex_text - 11) ex_text) 0) = Err e s'.
Proof.
  split; [eexists; eexists; split; vm_compute; reflexivity|]. split; [vm_compute; reflexivity|]. split; [vm_compute; reflexivity|].
  split; [eexists; eexists; vm_compute; reflexivity|]. eexists; eexists; vm_compute; reflexivity.
Qed.
