(** TreeProofs.v -- indexing a text: an exact relational characterisation of
    the readers of Tree.v. *)
From Coq Require Import ZifyBool.
From Verif Require Import Base Disco DiscoProofs Records RecordProofs RecordSound Spec LineFacts Tree TreeSpec.
Open Scope Z_scope.


Lemma division_fun l d d' : division_line l d -> division_line l d' -> d = d'.
Proof.
  intros ((A1 & A2 & A3 & A4 & A5 & A6) & (A7 & A8 & A9) & _)
         ((B1 & B2 & B3 & B4 & B5 & B6) & (B7 & B8 & B9) & _).
  destruct d as [[x1 x2 x3 x4 x5 x6] x7 x8 x9], d' as [[y1 y2 y3 y4 y5 y6] y7 y8 y9].
  cbn [sbase smat smf smt c1 c2 l1 l2 n1 n2] in *. congruence.
Qed.

(** ** forward lemmas *)
Lemma rd_int_fwd o l b s w z : inl o l b s -> read_int (col o w l) = Some z ->
  exists s', rd_int w s = Ok z s' /\ inl (o + w) l b s' /\ line s' = line s.
Proof.
  intros H E. destruct (rd_field_inl o l b s w H) as (s1 & E1 & I1 & L1).
  exists s1. unfold rd_int, bind. rewrite E1, E. auto.
Qed.
Lemma rd_real_fwd o l b s z : inl o l b s -> read_real (col o 11 l) = Some z ->
  exists s', rd_real s = Ok z s' /\ inl (o + 11) l b s' /\ line s' = line s.
Proof.
  intros H E. destruct (rd_field_inl o l b s 11 H) as (s1 & E1 & I1 & L1).
  exists s1. unfold rd_real, bind. rewrite E1, E. auto.
Qed.
Lemma rd_chars_fwd o l b s w : inl o l b s ->
  exists s', rd_chars w s = Ok (lj w (col o w l)) s' /\ inl (o + w) l b s' /\ line s' = line s.
Proof.
  intros H. destruct (rd_field_inl o l b s w H) as (s1 & E1 & I1 & L1).
  exists s1. unfold rd_chars, bind, ret. rewrite E1. auto.
Qed.

Lemma rd_base_fwd l b s c : inl 0 l b s -> base_cols l c ->
  exists s', rd_base s = Ok c s' /\ inl 66 l b s' /\ line s' = line s.
Proof.
  intros H (K1 & K2 & K3 & K4 & K5 & K6). unfold rd_base, bind.
  destruct (rd_real_fwd _ _ _ _ _ H K1) as (s1 & -> & I1 & L1).
  destruct (rd_real_fwd _ _ _ _ _ I1 K2) as (s2 & -> & I2 & L2).
  destruct (rd_int_fwd _ _ _ _ _ _ I2 K3) as (s3 & -> & I3 & L3).
  destruct (rd_int_fwd _ _ _ _ _ _ I3 K4) as (s4 & -> & I4 & L4).
  destruct (rd_int_fwd _ _ _ _ _ _ I4 K5) as (s5 & -> & I5 & L5).
  destruct (rd_int_fwd _ _ _ _ _ _ I5 K6) as (s6 & -> & I6 & L6).
  exists s6. unfold ret. destruct c. split; [reflexivity|]. split; [exact I6|congruence].
Qed.

Lemma rd_tail_fwd l b s m f t : inl 66 l b s -> carries m f t l ->
  rd_tail s = Ok (m, f, t) (mkst b (line s + 1)).
Proof.
  intros H (K1 & K2 & K3). unfold rd_tail, bind.
  destruct (rd_int_fwd _ _ _ _ _ _ H K1) as (s1 & -> & I1 & L1).
  destruct (rd_int_fwd _ _ _ _ _ _ I1 K2) as (s2 & -> & I2 & L2).
  destruct (rd_int_fwd _ _ _ _ _ _ I2 K3) as (s3 & -> & I3 & L3).
  unfold rd_eol, inc_line, ret. cbn [buf line]. unfold inl in I3. rewrite I3. cbn [snd].
  now rewrite L3, L2, L1.
Qed.

Lemma sdiv_fwd t l b ln d : next_line t = (l, b) -> division_line l d ->
  rd_sdiv (mkst t ln) = Ok d (mkst b (ln + 1)).
Proof.
  intros N (C & T & H1 & H2 & H3).
  assert (I : inl 0 l b (mkst t ln)) by exact N.
  destruct (rd_base_fwd _ _ _ (sbase d) I C) as (s1 & E1 & I1 & L1).
  unfold rd_sdiv. apply on_err_ok. unfold bind at 1. rewrite E1.
  unfold bind at 1. rewrite (rd_tail_fwd _ _ _ _ _ _ I1 T), L1.
  replace (smat d <? -1) with false by lia. replace (smf d <? 0) with false by lia.
  replace (smt d <? 0) with false by lia. cbn. destruct d. reflexivity.
Qed.

Lemma sdiv_inv t ln d s' : rd_sdiv (mkst t ln) = Ok d s' ->
  exists l b, next_line t = (l, b) /\ division_line l d /\ s' = mkst b (ln + 1).
Proof.
  intros E. unfold rd_sdiv in E. apply on_err_ok in E.
  destruct (inl_any (mkst t ln)) as (l & b & N & I).
  apply bind_ok in E. destruct E as (c & s1 & E1 & E).
  destruct (rd_base_cols _ _ _ _ _ I E1) as (K & I1 & L1).
  apply bind_ok in E. destruct E as ([[m f] x] & s2 & E2 & E).
  destruct (rd_tail_cols _ _ _ _ _ _ _ I1 E2) as (K2 & B2 & L2).
  apply bind_ok in E. destruct E as ([] & s3 & E3 & E). apply require_ok in E3. destruct E3 as [E3 ->].
  apply bind_ok in E. destruct E as ([] & s4 & E4 & E). apply require_ok in E4. destruct E4 as [E4 ->].
  apply bind_ok in E. destruct E as ([] & s5 & E5 & E). apply require_ok in E5. destruct E5 as [E5 ->].
  inversion E; subst. exists l, (buf s'). split; [exact N|]. split.
  - split; [exact K|]. split; [exact K2|]. cbn [smat smf smt]. lia.
  - destruct s' as [b' ln']. cbn in *. f_equal. lia.
Qed.

Lemma skip_fwd t l b ln m f x : next_line t = (l, b) -> carries m f x l ->
  rd_skip (mkst t ln) = Ok (m, f, x) (mkst b (ln + 1)).
Proof.
  intros N T. assert (I : inl 0 l b (mkst t ln)) by exact N.
  destruct (rd_chars_fwd _ _ _ _ 66 I) as (s1 & E1 & I1 & L1).
  unfold rd_skip, bind. rewrite E1, (rd_tail_fwd _ _ _ _ _ _ I1 T), L1. reflexivity.
Qed.
Lemma skip_inv t ln m f x s' : rd_skip (mkst t ln) = Ok (m, f, x) s' ->
  exists l b, next_line t = (l, b) /\ carries m f x l /\ s' = mkst b (ln + 1).
Proof.
  intros E. unfold rd_skip in E. destruct (inl_any (mkst t ln)) as (l & b & N & I).
  apply bind_ok in E. destruct E as (c & s1 & E1 & E).
  destruct (rd_chars_inl _ _ _ _ _ _ _ I E1) as (_ & I1 & L1).
  destruct (rd_tail_cols _ _ _ _ _ _ _ I1 E) as (K2 & B2 & L2).
  exists l, b. split; [exact N|]. split; [exact K2|].
  destruct s' as [b' ln']. cbn in *. f_equal; [auto|lia].
Qed.

(** ** lengths *)
Lemma next_line_le t l b : next_line t = (l, b) -> (length b <= length t)%nat.
Proof.
  intros H. destruct (next_line_cases _ _ _ H) as [->|[-> ->]].
  - rewrite app_length. cbn. lia.
  - cbn. lia.
Qed.
Lemma next_line_lt t l b : next_line t = (l, b) -> t <> [] -> (length b < length t)%nat.
Proof.
  intros H Ht. destruct (next_line_cases _ _ _ H) as [->|[-> ->]].
  - rewrite app_length. cbn. lia.
  - destruct l; [congruence|cbn; lia].
Qed.

(** ** division at a position *)
Definition div_at (t : text) (d : sdiv) (r : text) : Prop :=
  exists l, next_line t = (l, r) /\ division_line l d.
Lemma div_at_fwd t d r ln : div_at t d r -> rd_sdiv (mkst t ln) = Ok d (mkst r (ln + 1)).
Proof. intros (l & N & D). eapply sdiv_fwd; eauto. Qed.
Lemma div_at_inv t ln d s' : rd_sdiv (mkst t ln) = Ok d s' -> div_at t d (buf s').
Proof. intros E. apply sdiv_inv in E. destruct E as (l & b & N & D & ->). exists l. auto. Qed.
Lemma div_at_fun t d r d' r' : div_at t d r -> div_at t d' r' -> d = d' /\ r = r'.
Proof.
  intros (l & N & D) (l' & N' & D'). rewrite N in N'. inversion N'; subst.
  split; [eapply division_fun; eauto|reflexivity].
Qed.
Lemma div_at_lt t d r : div_at t d r -> t <> [] -> (length r < length t)%nat.
Proof. intros (l & N & _). eapply next_line_lt; eauto. Qed.
Lemma div_at_le t d r : div_at t d r -> (length r <= length t)%nat.
Proof. intros (l & N & _). eapply next_line_le; eauto. Qed.
Lemma div_at_nil d r : div_at [] d r -> is_head d = false /\ smt d = 0 /\ smat d = 0 /\ smf d = 0 /\ r = [].
Proof.
  intros (l & N & (_ & (K1 & K2 & K3) & _)). inversion N; subst. rewrite !col_nil in *.
  cbn in K1, K2, K3. injection K1 as K1. injection K2 as K2. injection K3 as K3.
  unfold is_head. rewrite <- K1, <- K2, <- K3. repeat split; reflexivity.
Qed.
Lemma div_at_head t d r : div_at t d r -> is_head d = true -> t <> [].
Proof. intros H K ->. apply div_at_nil in H. destruct H as (H & _). congruence. Qed.

(** ** end of a section *)
(** [block r p]: from position [r], the lines up to and including the first one
    with MT = 0 end at [p] *)
Inductive block : text -> text -> Prop :=
| block_end l b m f r : next_line r = (l, b) -> carries m f 0 l -> block r b
| block_more l b m f x r p : next_line r = (l, b) -> carries m f x l -> x <> 0 ->
    b <> [] -> block b p -> block r p.
Lemma block_le r p : block r p -> (length p <= length r)%nat.
Proof.
  induction 1 as [l b m f r N _|l b m f x r p N _ _ _ _ IH].
  - eapply next_line_le; eauto.
  - apply next_line_le in N. lia.
Qed.

Lemma find_end_fwd r p : block r p -> forall fuel ln, (length r < fuel)%nat ->
  exists ln', find_end fuel (mkst r ln) = Ok tt (mkst p ln').
Proof.
  induction 1 as [l b m f r N C|l b m f x r p N C Hx Hb _ IH]; intros [|fuel] ln Hf; try lia.
  - cbn [find_end]. unfold bind. rewrite (skip_fwd _ _ _ _ _ _ _ N C). exists (ln + 1). reflexivity.
  - cbn [find_end]. unfold bind at 1. rewrite (skip_fwd _ _ _ _ _ _ _ N C).
    replace (x =? 0) with false by lia. unfold bind, at_end. cbn [buf].
    destruct b as [|c b]; [congruence|]. apply IH.
    assert (r <> []) by (intros ->; inversion N).
    pose proof (next_line_lt _ _ _ N H). lia.
Qed.
Lemma find_end_inv fuel : forall r ln s', find_end fuel (mkst r ln) = Ok tt s' -> block r (buf s').
Proof.
  induction fuel as [|fuel IH]; intros r ln s' E; cbn [find_end] in E; [discriminate|].
  apply bind_ok in E. destruct E as ([[m f] x] & s1 & E1 & E).
  apply skip_inv in E1. destruct E1 as (l & b & N & C & ->).
  destruct (Z.eqb_spec x 0).
  - inversion E; subst. cbn. eapply block_end; eauto.
  - unfold bind, at_end in E. cbn [buf] in E. destruct b as [|c b]; [discriminate|].
    eapply block_more; eauto. congruence.
Qed.
Lemma find_end_std fuel : forall r ln, (length r < fuel)%nat -> never_other (find_end fuel (mkst r ln)).
Proof.
  induction fuel as [|fuel IH]; intros r ln Hf; [lia|]. cbn [find_end]. unfold bind.
  pose proof (only_std_skip (mkst r ln)) as S. destruct (rd_skip (mkst r ln)) as [[[m f] x] s1|e s1|] eqn:E.
  - apply skip_inv in E. destruct E as (l & b & N & C & ->). destruct (x =? 0); [exact I|].
    unfold at_end. cbn [buf]. destruct b as [|c b]; [exact eq_refl|]. apply IH.
    assert (r <> []) by (intros ->; inversion N). pose proof (next_line_lt _ _ _ N H). lia.
  - exact S.
  - exact S.
Qed.

(** ** one element of a level: [R d t x p] says that the element whose first
    division is [d], starting at [t], is [x] and ends at [p] *)
Definition sec_at (d : sdiv) (t : text) (x : tsec) (p : text) : Prop :=
  exists r, div_at t d r /\ block r p
            /\ x = mktsec (smat d) (smf d) (smt d) (upto t p).
Record inner_ok {X} (inner : sdiv -> text -> M X) (R : sdiv -> text -> X -> text -> Prop) : Prop :=
  { in_fwd : forall d t r x p ln, div_at t d r -> is_head d = true -> R d t x p ->
               exists ln', inner d t (mkst r ln) = Ok x (mkst p ln');
    in_inv : forall d t r x s' ln, div_at t d r -> is_head d = true ->
               inner d t (mkst r ln) = Ok x s' -> R d t x (buf s');
    in_lt : forall d t x p, is_head d = true -> R d t x p -> (length p < length t)%nat;
    in_std : forall d t r ln, div_at t d r -> is_head d = true -> never_other (inner d t (mkst r ln)) }.

Lemma never_on_err {A} (m : M A) s : never_other (m s) -> never_other (on_err m h_std s).
Proof. unfold on_err. destruct (m s) as [a s'|[] s'|]; cbn; auto. Qed.

Lemma section_inner : inner_ok rd_section sec_at.
Proof.
  constructor.
  - intros d t r x p ln Hd Hh (r' & Hd' & Hb & ->). destruct (div_at_fun _ _ _ _ _ Hd Hd') as [_ <-].
    destruct (find_end_fwd _ _ Hb (S (length r)) ln ltac:(lia)) as (ln' & E).
    exists ln'. unfold rd_section. apply on_err_ok. unfold bind, get_pos. cbn [buf]. rewrite E. reflexivity.
  - intros d t r x s' ln Hd Hh E. unfold rd_section in E. apply on_err_ok in E.
    unfold bind, get_pos in E. cbn [buf] in E.
    destruct (find_end (S (length r)) (mkst r ln)) as [[] s1| |] eqn:F; try discriminate.
    apply find_end_inv in F. inversion E; subst. exists r. auto.
  - intros d t x p Hh (r & Hd & Hb & _). apply block_le in Hb.
    pose proof (div_at_lt _ _ _ Hd (div_at_head _ _ _ Hd Hh)). lia.
  - intros d t r ln Hd Hh. unfold rd_section. apply never_on_err. unfold bind, get_pos. cbn [buf].
    pose proof (find_end_std (S (length r)) r ln ltac:(lia)) as F.
    destruct (find_end (S (length r)) (mkst r ln)) as [[] s1| |]; auto.
Qed.

(** ** redundant end records *)
(** from [t], [n] divisions satisfying isend are skipped, to [t']; the
    division at [t'] does not satisfy it, or it is the last line of the text *)
Inductive skips (isend : sdiv -> bool) : text -> text -> Prop :=
| skips_stop t d r : div_at t d r -> isend d = false -> skips isend t t
| skips_last t d r : div_at t d r -> isend d = true -> forall d', div_at r d' [] -> skips isend t r
| skips_more t d r t' : div_at t d r -> isend d = true -> forall d' r', div_at r d' r' -> r' <> [] ->
    skips isend r t' -> skips isend t t'.

Lemma skip_divs_fwd isend t t' : skips isend t t' ->
  forall d r fuel ln, div_at t d r -> (length r < fuel)%nat ->
  exists ln' d' r', div_at t' d' r' /\ skip_divs isend fuel t d (mkst r ln) = Ok (t', d') (mkst r' ln').
Proof.
  induction 1 as [t d r Hd He|t d r Hd He d' Hd'|t d r t' Hd He d' r' Hd' Hr' Hs IH];
    intros d2 r2 [|fuel] ln Hd2 Hf; try lia;
    destruct (div_at_fun _ _ _ _ _ Hd Hd2) as [<- <-]; cbn [skip_divs]; rewrite He.
  - exists ln, d, r. split; [exact Hd|]. reflexivity.
  - unfold bind, get_pos, at_end. cbn [buf]. rewrite (div_at_fwd _ _ _ _ Hd'). cbn [buf].
    exists (ln + 1), d', []. split; [exact Hd'|]. reflexivity.
  - unfold bind, get_pos, at_end. cbn [buf]. rewrite (div_at_fwd _ _ _ _ Hd'). cbn [buf].
    destruct r' as [|c r']; [congruence|].
    assert (r <> []). { intros ->. apply div_at_nil in Hd'. destruct Hd' as (_ & _ & _ & _ & K). congruence. }
    pose proof (div_at_lt _ _ _ Hd' H). apply IH; [exact Hd'|lia].
Qed.
Lemma skip_divs_inv isend fuel : forall t d r ln t' d' s', div_at t d r ->
  skip_divs isend fuel t d (mkst r ln) = Ok (t', d') s' ->
  skips isend t t' /\ div_at t' d' (buf s').
Proof.
  induction fuel as [|fuel IH]; intros t d r ln t' d' s' Hd E; cbn [skip_divs] in E; [discriminate|].
  destruct (isend d) eqn:He.
  - apply bind_ok in E. destruct E as (b & s1 & E1 & E). inversion E1; subst.
    apply bind_ok in E. destruct E as (d1 & s2 & E2 & E).
    pose proof (div_at_inv _ _ _ _ E2) as H2. cbn [buf] in *. unfold bind, at_end in E.
    destruct s2 as [b2 ln2]. cbn [buf] in *. destruct b2 as [|c b2].
    + inversion E; subst. split; [eapply skips_last; eauto|exact H2].
    + destruct (IH _ _ _ _ _ _ _ H2 E) as [S D]. split; [|exact D].
      eapply skips_more; eauto. congruence.
  - inversion E; subst. split; [eapply skips_stop; eauto|exact Hd].
Qed.
Lemma skip_divs_std isend fuel : forall t d r ln, (length r < fuel)%nat ->
  never_other (skip_divs isend fuel t d (mkst r ln)).
Proof.
  induction fuel as [|fuel IH]; intros t d r ln Hf; [lia|]. cbn [skip_divs].
  destruct (isend d); [|exact I]. unfold bind, get_pos. cbn [buf].
  pose proof (only_std_sdiv (mkst r ln)) as S. destruct (rd_sdiv (mkst r ln)) as [d' s1|e s1|] eqn:E; auto.
  pose proof (div_at_inv _ _ _ _ E) as D. unfold at_end. destruct s1 as [b1 ln1]. cbn [buf] in *.
  destruct b1 as [|c b1]; [exact I|]. apply IH.
  assert (r <> []). { intros ->. apply div_at_nil in D. destruct D as (_ & _ & _ & _ & K). congruence. }
  pose proof (div_at_lt _ _ _ D H). lia.
Qed.
Lemma skips_le isend t t' : skips isend t t' -> (length t' <= length t)%nat.
Proof.
  induction 1 as [t d r Hd He|t d r Hd He d' Hd'|t d r t' Hd He d' r' Hd' Hr' Hs IH]; auto;
    apply div_at_le in Hd; lia.
Qed.

Lemma next_div_fwd isend t t' ln : skips isend t t' ->
  exists ln' d' r', div_at t' d' r' /\ next_div isend (mkst t ln) = Ok (t', d') (mkst r' ln').
Proof.
  intros S. assert (exists d r, div_at t d r) as (d & r & Hd) by (inversion S; subst; eauto).
  unfold next_div, bind, get_pos. cbn [buf]. rewrite (div_at_fwd _ _ _ _ Hd).
  apply skip_divs_fwd; auto. apply div_at_le in Hd. lia.
Qed.
Lemma next_div_inv isend t ln t' d' s' : next_div isend (mkst t ln) = Ok (t', d') s' ->
  skips isend t t' /\ div_at t' d' (buf s').
Proof.
  unfold next_div. intros E. apply bind_ok in E. destruct E as (b & s1 & E1 & E). inversion E1; subst.
  apply bind_ok in E. destruct E as (d & s2 & E2 & E). pose proof (div_at_inv _ _ _ _ E2) as D.
  destruct s2 as [bb lnn]. cbn [buf] in *. eapply skip_divs_inv; eauto.
Qed.
Lemma next_div_std isend t ln : never_other (next_div isend (mkst t ln)).
Proof.
  unfold next_div, bind, get_pos. cbn [buf].
  pose proof (only_std_sdiv (mkst t ln)) as S. destruct (rd_sdiv (mkst t ln)) as [d s1|e s1|] eqn:E; auto.
  pose proof (div_at_inv _ _ _ _ E) as D. destruct s1 as [bb lnn]. cbn [buf] in *. apply skip_divs_std.
  apply div_at_le in D. lia.
Qed.

(** ** a level: file or material *)
Section LevelProofs.
  Context {X : Type} (inner : sdiv -> text -> M X) (R : sdiv -> text -> X -> text -> Prop).
  Context (key : sdiv -> Z) (same isend closing : sdiv -> bool).
  Hypothesis HI : inner_ok inner R.
  Hypothesis same_head : forall d, same d = true -> is_head d = true.

  (** [items t l p]: from [t], the elements [l] (with their keys, in order of
      occurrence), ending at [p] *)
  Inductive items : text -> list (Z * X) -> text -> Prop :=
  | items_close t d r : div_at t d r -> same d = false -> closing d = true -> items t [] r
  | items_stop t d r : div_at t d r -> same d = false -> closing d = false -> items t [] t
  | items_cons t d r x p t' l q : div_at t d r -> same d = true -> R d t x p -> p <> [] ->
      skips isend p t' -> items t' l q -> items t ((key d, x) :: l) q.

  Fixpoint fold_place (l acc : list (Z * X)) : list (Z * X) :=
    match l with [] => acc | (k, x) :: l' => fold_place l' (memplace k x acc) end.
  Fixpoint fresh (l acc : list (Z * X)) : Prop :=
    match l with
    | [] => True
    | (k, x) :: l' => mhas k acc = false /\ fresh l' (memplace k x acc)
    end.

  Lemma level_fwd t l p : items t l p -> forall d r fuel acc ln, div_at t d r ->
    (length t < fuel)%nat -> fresh l acc ->
    exists ln', level_loop inner key same isend closing fuel t d acc (mkst r ln)
                = Ok (fold_place l acc) (mkst p ln').
  Proof.
    induction 1 as [t d r Hd Hs Hc|t d r Hd Hs Hc|t d r x p t' l q Hd Hs HR Hp Hk Hi IH];
      intros d2 r2 [|fuel] acc ln Hd2 Hf Hfr; try lia;
      destruct (div_at_fun _ _ _ _ _ Hd Hd2) as [<- <-]; cbn [level_loop]; rewrite Hs.
    - rewrite Hc. exists ln. reflexivity.
    - rewrite Hc. exists ln. reflexivity.
    - destruct Hfr as [F1 F2]. rewrite F1. cbn [negb].
      unfold bind at 1. cbn [require ret]. unfold ret.
      destruct (in_fwd _ _ HI _ _ _ _ _ ln Hd (same_head _ Hs) HR) as (ln1 & E1).
      unfold bind at 1. rewrite E1. unfold bind at 1. unfold at_end. cbn [buf].
      destruct p as [|c p]; [congruence|]. unfold bind at 1. cbn [negb require]. unfold ret.
      destruct (next_div_fwd _ _ _ ln1 Hk) as (ln2 & d' & r' & Hd' & E2).
      unfold bind at 1. rewrite E2. cbn [fold_place]. apply IH; auto.
      apply skips_le in Hk. pose proof (in_lt _ _ HI _ _ _ _ (same_head _ Hs) HR). lia.
  Qed.

  Lemma level_inv fuel : forall t d r acc ln l' s', div_at t d r ->
    level_loop inner key same isend closing fuel t d acc (mkst r ln) = Ok l' s' ->
    exists l, items t l (buf s') /\ fresh l acc /\ l' = fold_place l acc.
  Proof.
    induction fuel as [|fuel IH]; intros t d r acc ln l' s' Hd E; cbn [level_loop] in E; [discriminate|].
    destruct (same d) eqn:Hs.
    - apply bind_ok in E. destruct E as (u & s1 & E1 & E). apply require_ok in E1. destruct E1 as [E1 ->].
      apply bind_ok in E. destruct E as (x & s2 & E2 & E).
      pose proof (in_inv _ _ HI _ _ _ _ _ _ Hd (same_head _ Hs) E2) as HR.
      unfold bind at 1, at_end in E. destruct s2 as [b2 ln2]. cbn [buf] in *.
      destruct b2 as [|c b2]; [discriminate|].
      unfold bind at 1 in E. cbn [negb require] in E. unfold ret in E.
      apply bind_ok in E. destruct E as ([t' d'] & s3 & E3 & E).
      apply next_div_inv in E3. destruct E3 as [Hk Hd']. destruct s3 as [b3 ln3]. cbn [buf] in *.
      destruct (IH _ _ _ _ _ _ _ Hd' E) as (l & Hi & Hf & ->).
      exists ((key d, x) :: l). split; [eapply items_cons; eauto; congruence|].
      split; [|reflexivity]. cbn [fresh]. destruct (mhas (key d) acc); [discriminate|auto].
    - destruct (closing d) eqn:Hc.
      + inversion E; subst. exists []. split; [|cbn; auto]. eapply items_close; eauto.
      + inversion E; subst. exists []. split; [|cbn; auto]. cbn [buf]. eapply items_stop; eauto.
  Qed.

  Lemma level_std fuel : forall t d r acc ln, div_at t d r -> (length t < fuel)%nat ->
    never_other (level_loop inner key same isend closing fuel t d acc (mkst r ln)).
  Proof.
    induction fuel as [|fuel IH]; intros t d r acc ln Hd Hf; [lia|]. cbn [level_loop].
    destruct (same d) eqn:Hs.
    - destruct (mhas (key d) acc); [exact eq_refl|]. unfold bind at 1. cbn [negb require]. unfold ret.
      unfold bind at 1. pose proof (in_std _ _ HI _ _ _ ln Hd (same_head _ Hs)) as S.
      destruct (inner d t (mkst r ln)) as [x s1|e s1|] eqn:E1; auto.
      pose proof (in_inv _ _ HI _ _ _ _ _ _ Hd (same_head _ Hs) E1) as HR.
      pose proof (in_lt _ _ HI _ _ _ _ (same_head _ Hs) HR) as HL.
      unfold bind at 1, at_end. destruct s1 as [b1 ln1]. cbn [buf] in *.
      destruct b1 as [|c b1]; [exact eq_refl|]. unfold bind at 1. cbn [negb require]. unfold ret.
      unfold bind at 1. pose proof (next_div_std isend (c :: b1) ln1) as S2.
      destruct (next_div isend (mkst (c :: b1) ln1)) as [[t' d'] s2|e s2|] eqn:E2; auto.
      apply next_div_inv in E2. destruct E2 as [Hk Hd']. destruct s2 as [bb lnn]. cbn [buf] in *.
      apply IH; [exact Hd'|]. apply skips_le in Hk. lia.
    - destruct (closing d); exact I.
  Qed.

  Lemma rd_level_fwd t l p s : items t l p -> fresh l [] ->
    exists ln', rd_level inner key same isend closing t s = Ok (fold_place l []) (mkst p ln').
  Proof.
    intros Hi Hf. assert (exists d r, div_at t d r) as (d & r & Hd) by (inversion Hi; subst; eauto).
    unfold rd_level, bind, dec_line, set_pos. cbn [line]. rewrite (div_at_fwd _ _ _ _ Hd).
    eapply level_fwd; eauto.
  Qed.
  Lemma rd_level_inv t s l' s' : rd_level inner key same isend closing t s = Ok l' s' ->
    exists l, items t l (buf s') /\ fresh l [] /\ l' = fold_place l [].
  Proof.
    intros E. unfold rd_level in E. unfold bind at 1, dec_line in E. unfold bind at 1, set_pos in E.
    apply bind_ok in E. destruct E as (d & s2 & E2 & E). pose proof (div_at_inv _ _ _ _ E2) as D.
    destruct s2 as [bb lnn]. cbn [buf] in *. eapply level_inv; eauto.
  Qed.
  Lemma rd_level_std t s : never_other (rd_level inner key same isend closing t s).
  Proof.
    unfold rd_level, bind, dec_line, set_pos. cbn [line].
    pose proof (only_std_sdiv (mkst t (line s - 1))) as S.
    destruct (rd_sdiv (mkst t (line s - 1))) as [d s1|e s1|] eqn:E; auto.
    pose proof (div_at_inv _ _ _ _ E) as D. destruct s1 as [bb lnn]. cbn [buf] in *. eapply level_std; eauto.
  Qed.
  Lemma items_le t l p : items t l p -> (length p <= length t)%nat.
  Proof.
    induction 1 as [t d r Hd Hs Hc|t d r Hd Hs Hc|t d r x p t' l q Hd Hs HR Hp Hk Hi IH]; auto.
    - eapply div_at_le; eauto.
    - apply skips_le in Hk. pose proof (in_lt _ _ HI _ _ _ _ (same_head _ Hs) HR). lia.
  Qed.
  Lemma items_lt t l p : items t l p -> forall d r, div_at t d r -> same d = true -> (length p < length t)%nat.
  Proof.
    intros H d0 r0 D0 S0. inversion H as [t1 d r Hd Hs Hc|t1 d r Hd Hs Hc|t1 d r x p1 t' l1 q Hd Hs HR Hp Hk Hi]; subst.
    - destruct (div_at_fun _ _ _ _ _ Hd D0). congruence.
    - destruct (div_at_fun _ _ _ _ _ Hd D0). congruence.
    - apply skips_le in Hk. apply items_le in Hi.
      pose proof (in_lt _ _ HI _ _ _ _ (same_head _ Hs) HR). lia.
  Qed.
End LevelProofs.

(** ** files and materials *)
Definition in_mf (mf : Z) (d : sdiv) : bool := is_head d && (smf d =? mf).
Definition in_mat (mat : Z) (d : sdiv) : bool := is_head d && (smat d =? mat).
Definition file_at (d : sdiv) (t : text) (f : tfile) (p : text) : Prop :=
  (exists r, div_at t d r) /\ exists l, items sec_at smt (in_mf (smf d)) is_send is_fend t l p
    /\ fresh l [] /\ f = mktfile (smat d) (smf d) (fold_place l []).
Definition mat_at (d : sdiv) (t : text) (m : tmat) (p : text) : Prop :=
  (exists r, div_at t d r) /\ exists l, items file_at smf (in_mat (smat d)) is_fend is_mend t l p
    /\ fresh l [] /\ m = mktmat (smat d) (fold_place l []).

Lemma in_mf_head mf d : in_mf mf d = true -> is_head d = true.
Proof. unfold in_mf. intros H. apply andb_prop in H. tauto. Qed.
Lemma in_mat_head mat d : in_mat mat d = true -> is_head d = true.
Proof. unfold in_mat. intros H. apply andb_prop in H. tauto. Qed.

Lemma file_inner : inner_ok rd_file file_at.
Proof.
  constructor.
  - intros d t r x p ln Hd Hh (_ & l & Hi & Hf & ->).
    destruct (rd_level_fwd _ _ _ _ _ _ section_inner (in_mf_head _) _ _ _ (mkst r ln) Hi Hf) as (ln' & E).
    exists ln'. unfold rd_file. apply on_err_ok. unfold bind. unfold in_mf in E. rewrite E. reflexivity.
  - intros d t r x s' ln Hd Hh E. unfold rd_file in E. apply on_err_ok in E.
    apply bind_ok in E. destruct E as (l & s1 & E1 & E).
    apply (rd_level_inv _ _ _ _ _ _ section_inner (in_mf_head _)) in E1.
    destruct E1 as (l0 & Hi & Hf & ->). inversion E; subst. split; [eauto|]. exists l0. auto.
  - intros d t x p Hh ((r & Hd) & l & Hi & _). eapply (items_lt _ _ _ _ _ _ section_inner (in_mf_head _)); eauto.
    unfold in_mf. rewrite Hh. cbn. apply Z.eqb_refl.
  - intros d t r ln Hd Hh. unfold rd_file. apply never_on_err. unfold bind.
    pose proof (rd_level_std _ _ smt _ is_send is_fend section_inner (in_mf_head (smf d)) t (mkst r ln)) as S.
    unfold in_mf in S.
    destruct (rd_level rd_section smt (fun d0 => is_head d0 && (smf d0 =? smf d)) is_send is_fend t (mkst r ln)); auto.
Qed.
Lemma mat_inner : inner_ok rd_mat mat_at.
Proof.
  constructor.
  - intros d t r x p ln Hd Hh (_ & l & Hi & Hf & ->).
    destruct (rd_level_fwd _ _ _ _ _ _ file_inner (in_mat_head _) _ _ _ (mkst r ln) Hi Hf) as (ln' & E).
    exists ln'. unfold rd_mat. apply on_err_ok. unfold bind. unfold in_mat in E. rewrite E. reflexivity.
  - intros d t r x s' ln Hd Hh E. unfold rd_mat in E. apply on_err_ok in E.
    apply bind_ok in E. destruct E as (l & s1 & E1 & E).
    apply (rd_level_inv _ _ _ _ _ _ file_inner (in_mat_head _)) in E1.
    destruct E1 as (l0 & Hi & Hf & ->). inversion E; subst. split; [eauto|]. exists l0. auto.
  - intros d t x p Hh ((r & Hd) & l & Hi & _). eapply (items_lt _ _ _ _ _ _ file_inner (in_mat_head _)); eauto.
    unfold in_mat. rewrite Hh. cbn. apply Z.eqb_refl.
  - intros d t r ln Hd Hh. unfold rd_mat. apply never_on_err. unfold bind.
    pose proof (rd_level_std _ _ smf _ is_fend is_mend file_inner (in_mat_head (smat d)) t (mkst r ln)) as S.
    unfold in_mat in S.
    destruct (rd_level rd_file smf (fun d0 => is_head d0 && (smat d0 =? smat d)) is_fend is_mend t (mkst r ln)); auto.
Qed.

(** ** tapes *)
Inductive mats_gen {X} (R : sdiv -> text -> X -> text -> Prop) : text -> list (Z * X) -> text -> Prop :=
| mats_end t d r : div_at t d r -> is_head d = false -> is_tend d = true -> mats_gen R t [] r
| mats_cons t d r m p t' l q : div_at t d r -> is_head d = true -> R d t m p ->
    skips is_mend p t' -> mats_gen R t' l q -> mats_gen R t ((smat d, m) :: l) q.
Notation mats_at := (mats_gen mat_at).
Fixpoint fold_mmput {A} (l acc : list (Z * A)) : list (Z * A) :=
  match l with [] => acc | (k, x) :: l' => fold_mmput l' (mmput k x acc) end.

Lemma tape_loop_fwd t l p : mats_at t l p -> forall d r fuel acc ln, div_at t d r ->
  (length t < fuel)%nat ->
  exists ln', tape_loop fuel t d acc (mkst r ln) = Ok (fold_mmput l acc) (mkst p ln').
Proof.
  induction 1 as [t d r Hd Hh Ht|t d r m p t' l q Hd Hh HR Hk Hi IH];
    intros d2 r2 [|fuel] acc ln Hd2 Hf; try lia;
    destruct (div_at_fun _ _ _ _ _ Hd Hd2) as [<- <-]; cbn [tape_loop]; rewrite Hh.
  - rewrite Ht. exists ln. reflexivity.
  - destruct (in_fwd _ _ mat_inner _ _ _ _ _ ln Hd Hh HR) as (ln1 & E1).
    unfold bind at 1. rewrite E1.
    destruct (next_div_fwd _ _ _ ln1 Hk) as (ln2 & d' & r' & Hd' & E2).
    unfold bind at 1. rewrite E2. cbn [fold_mmput]. apply IH; auto.
    apply skips_le in Hk. pose proof (in_lt _ _ mat_inner _ _ _ _ Hh HR). lia.
Qed.
Lemma tape_loop_inv fuel : forall t d r acc ln l' s', div_at t d r ->
  tape_loop fuel t d acc (mkst r ln) = Ok l' s' ->
  exists l, mats_at t l (buf s') /\ l' = fold_mmput l acc.
Proof.
  induction fuel as [|fuel IH]; intros t d r acc ln l' s' Hd E; cbn [tape_loop] in E; [discriminate|].
  destruct (is_head d) eqn:Hh.
  - apply bind_ok in E. destruct E as (x & s2 & E2 & E).
    pose proof (in_inv _ _ mat_inner _ _ _ _ _ _ Hd Hh E2) as HR.
    destruct s2 as [b2 ln2]. cbn [buf] in *.
    apply bind_ok in E. destruct E as ([t' d'] & s3 & E3 & E).
    apply next_div_inv in E3. destruct E3 as [Hk Hd']. destruct s3 as [b3 ln3]. cbn [buf] in *.
    destruct (IH _ _ _ _ _ _ _ Hd' E) as (l & Hi & ->).
    exists ((smat d, x) :: l). split; [eapply mats_cons; eauto|reflexivity].
  - apply bind_ok in E. destruct E as (u & s2 & E2 & E). apply require_ok in E2. destruct E2 as [E2 ->].
    inversion E; subst. exists []. split; [eapply mats_end; eauto|reflexivity].
Qed.
Lemma tape_loop_std fuel : forall t d r acc ln, div_at t d r -> (length t < fuel)%nat ->
  never_other (tape_loop fuel t d acc (mkst r ln)).
Proof.
  induction fuel as [|fuel IH]; intros t d r acc ln Hd Hf; [lia|]. cbn [tape_loop].
  destruct (is_head d) eqn:Hh.
  - unfold bind at 1. pose proof (in_std _ _ mat_inner _ _ _ ln Hd Hh) as S.
    destruct (rd_mat d t (mkst r ln)) as [x s1|e s1|] eqn:E1; auto.
    pose proof (in_inv _ _ mat_inner _ _ _ _ _ _ Hd Hh E1) as HR.
    pose proof (in_lt _ _ mat_inner _ _ _ _ Hh HR) as HL.
    destruct s1 as [b1 ln1]. cbn [buf] in *.
    unfold bind at 1. pose proof (next_div_std is_mend b1 ln1) as S2.
    destruct (next_div is_mend (mkst b1 ln1)) as [[t' d'] s2|e s2|] eqn:E2; auto.
    apply next_div_inv in E2. destruct E2 as [Hk Hd']. destruct s2 as [bb lnn]. cbn [buf] in *.
    apply IH; [exact Hd'|]. apply skips_le in Hk. lia.
  - unfold bind. destruct (is_tend d); cbn; auto.
Qed.

Lemma tpid_fwd t l b ln i : next_line t = (l, b) -> tpid_line l i ->
  rd_tpid (mkst t ln) = Ok i (mkst b (ln + 1)).
Proof.
  intros N (T & C). assert (I : inl 0 l b (mkst t ln)) by exact N.
  destruct (rd_chars_fwd _ _ _ _ 66 I) as (s1 & E1 & I1 & L1).
  unfold rd_tpid. apply on_err_ok. unfold bind. rewrite E1, (rd_tail_fwd _ _ _ _ _ _ I1 C), L1.
  rewrite <- T. now destruct i.
Qed.
Lemma tpid_inv t ln i s' : rd_tpid (mkst t ln) = Ok i s' ->
  exists l b, next_line t = (l, b) /\ tpid_line l i /\ s' = mkst b (ln + 1).
Proof.
  intros E. unfold rd_tpid in E. apply on_err_ok in E.
  destruct (inl_any (mkst t ln)) as (l & b & N & I).
  apply bind_ok in E. destruct E as (c & s1 & E1 & E).
  destruct (rd_chars_inl _ _ _ _ _ _ _ I E1) as (K & I1 & L1).
  apply bind_ok in E. destruct E as ([[m f] x] & s2 & E2 & E).
  destruct (rd_tail_cols _ _ _ _ _ _ _ I1 E2) as (K2 & B2 & L2).
  destruct (Z.eqb_spec x 0); [|discriminate]. destruct (Z.eqb_spec f 0); [|discriminate].
  unfold bind, ret in E. inversion E; subst. exists l, (buf s'). split; [exact N|]. split.
  - split; [reflexivity|exact K2].
  - destruct s'. cbn in *. f_equal. lia.
Qed.

(** the exact meaning of indexing a tape *)
Definition tape_at (t : text) (T : ttape) (p : text) : Prop :=
  exists l b i ms, next_line t = (l, b) /\ tpid_line l i /\ mats_at b ms p
    /\ T = mkttape (Some i) (fold_mmput ms []).
Theorem index_tape_iff t T : (exists s, index_tape t = Ok T s) <-> exists p, tape_at t T p.
Proof.
  split.
  - intros (s & E). unfold index_tape, rd_tape in E. apply on_err_ok in E.
    apply bind_ok in E. destruct E as (i & s1 & E1 & E).
    apply tpid_inv in E1. destruct E1 as (l & b & N & Ti & ->).
    unfold bind at 1, get_pos in E. cbn [buf] in E.
    apply bind_ok in E. destruct E as (d & s2 & E2 & E). pose proof (div_at_inv _ _ _ _ E2) as D.
    apply bind_ok in E. destruct E as (ms' & s3 & E3 & E). destruct s2 as [bb lnn]. cbn [buf] in *.
    apply tape_loop_inv in E3; [|exact D]. destruct E3 as (ms & H & ->). inversion E; subst.
    exists (buf s), l, b, i, ms. auto.
  - intros (p & l & b & i & ms & N & Ti & H & ->).
    assert (exists d r, div_at b d r) as (d & r & Hd) by (inversion H; subst; eauto).
    destruct (tape_loop_fwd _ _ _ H _ _ (S (length b)) [] (0 + 1 + 1) Hd ltac:(lia)) as (ln' & E).
    exists (mkst p ln'). unfold index_tape, rd_tape. apply on_err_ok. unfold bind, get_pos.
    rewrite (tpid_fwd _ _ _ _ _ N Ti). cbn [buf]. rewrite (div_at_fwd _ _ _ _ Hd), E. reflexivity.
Qed.
Theorem index_tape_std t : never_other (index_tape t).
Proof.
  unfold index_tape, rd_tape. apply never_on_err. unfold bind at 1.
  pose proof (only_std_tpid (mkst t 0)) as Sa. destruct (rd_tpid (mkst t 0)) as [i s1|e s1|]; auto.
  unfold bind at 1, get_pos. unfold bind at 1. pose proof (only_std_sdiv s1) as S1.
  destruct s1 as [b ln]. cbn [buf].
  destruct (rd_sdiv (mkst b ln)) as [d s2|e s2|] eqn:E; auto.
  pose proof (div_at_inv _ _ _ _ E) as D. destruct s2 as [bb lnn]. cbn [buf] in *. unfold bind.
  pose proof (tape_loop_std (S (length b)) b d bb [] lnn D ltac:(lia)) as S2.
  destruct (tape_loop (S (length b)) b d [] (mkst bb lnn)); auto.
Qed.
