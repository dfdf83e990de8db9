(** PropFile30.v -- C32, continued: file 30 of a material that was read: it has no sections. *)
From Coq Require Import String ZifyBool.
From Verif Require Import Base Disco Records Spec Sections Tree Typed TypedSpec TypedProofs PropTyped PropTree2 Classes PropClasses.
Open Scope Z_scope.

Lemma read_keys d s m s' : rd_ymat skind_of lib_class d s = Ok m s' -> forall mf f, ymat_file m mf = Val f -> yf_mf f = mf.
Proof.
  intros E mf f F. destruct (C32_read_consistent _ _ _ _ _ _ lib_table _ _ _ _ E) as (_ & _ & A).
  unfold ymat_file, at_ in F. destruct (mfind mf (ym_files m)) as [f'|] eqn:K; [|discriminate]. injection F as ->.
  assert (G : In (mf, f) (ym_files m)).
  { revert K. generalize (ym_files m). induction l as [|[a b] l IH]; cbn [mfind]; [discriminate|]. destruct (Z.eqb_spec mf a) as [->|]; [intros K; injection K as ->; now left|intros K; right; auto]. }
  rewrite Forall_forall in A. destruct (A _ G) as [Q _]. cbn in Q. congruence.
Qed.
(** a section of file 30 of a material that was read is never returned: section( 30, MT ) throws
    std::exception when there is a file 30, std::out_of_range when there is none; the other files
    give what they hold *)
Theorem C32_file_30 : forall s m s', parse_ymat skind_of lib_class s = Ok m s' ->
  (ymat_hasMF m 30 = true -> forall mt, ymat_section m 30 mt = Throw EStd)
  /\ (ymat_hasMF m 30 = false -> forall mt, ymat_section m 30 mt = Throw EOor)
  /\ (forall mf mt f, mf <> 30 -> ymat_file m mf = Val f -> ymat_section m mf mt = yfile_section f mt).
Proof.
  intros s m s' E. unfold parse_ymat in E. apply bind_ok in E. destruct E as (d & s1 & _ & E). assert (K := read_keys _ _ _ _ E).
  unfold ymat_hasMF, mhas, ymat_section. repeat split.
  - intros H mt. destruct (mfind 30 (ym_files m)) as [f|] eqn:F; [|discriminate]. assert (G : ymat_file m 30 = Val f) by (unfold ymat_file, at_; now rewrite F).
    rewrite G. cbn [obind]. rewrite (K _ _ G). reflexivity.
  - intros H mt. destruct (mfind 30 (ym_files m)) as [f|] eqn:F; [discriminate|]. unfold ymat_file, at_. rewrite F. reflexivity.
  - intros mf mt f N G. rewrite G. cbn [obind]. rewrite (K _ _ G). destruct (Z.eqb_spec mf 30); [congruence|reflexivity].
Qed.
Definition m30 : text := txt " 9.223500+4 2.330250+2          0          0          0          0922830  1     
                                                                  922830  0     
                                                                  9228 0  0     
                                                                     0 0  0     
"%string.
Example C32_example_30 : exists m s, parse_ymat skind_of lib_class (mkst m30 0) = Ok m s /\ ymat_hasMF m 30 = true /\ ymat_hasMFMT m 30 1 = false /\ ymat_section m 30 1 = Throw EStd.
Proof. eexists. eexists. split; [vm_compute; reflexivity|]. repeat split. Qed.
(** C71: parse() of a tree section can be undefined: here a covariance matrix with no row energies,
    the size of which is divided by that number *)
From Verif Require Import Sec451 PyTree PropPyTree.
Definition t33 : text := txt " 1.000000+0 1.000000+0          0          0          0          1922833  5     
 0.000000+0 0.000000+0          0          5          0          1922833  5     
 0.000000+0 0.000000+0          0          6          1          0922833  5     
 1.000000+0                                                       922833  5     
                                                                  922833  0     
"%string.
Theorem C71_section_parse_undefined : py_section_parse (mktsec 9228 33 5 t33) = Undef
  /\ exists c, lib_class 33 5 = Some c /\ sec_parse (skind_of c) (mktsec 9228 33 5 t33) = Undef.
Proof.
  assert (K : py_section_parse (mktsec 9228 33 5 t33) = Undef) by (vm_compute; reflexivity). split; [exact K|].
  now apply (proj2 (proj2 (C71_section_parse (mktsec 9228 33 5 t33)))) in K.
Qed.
