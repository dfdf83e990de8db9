(** Sec451Spec.v -- representable and consistent descriptive sections; what a
    directory should say. *)
From Coq Require Import Sorted.
From Verif Require Import Base Disco Records RealRound RealProofs Spec Sections SecSpec Tree EditSpec Sec451.
Open Scope Z_scope.

Definition rep_descr (b : descr) : Prop :=
  endf_cont (d_c0 b) /\ endf_cont (d_c1 b) /\ endf_cont (d_c2 b)
  /\ Forall (fun t => length t = 66%nat /\ noLF t) (d_text b) /\ Forall rep_dir (d_index b).
(** NWD and NXC in the third record are the numbers of lines *)
Definition inv_descr (b : descr) : Prop :=
  int32 (d_lrp b) /\ int32 (d_lfi b) /\ int32 (d_nlib b) /\ int32 (d_nmod b)
  /\ 0 <= n1 (d_c2 b) /\ 1 <= n2 (d_c2 b)
  /\ as_int (n1 (d_c2 b)) (len (d_text b)) /\ as_int (n2 (d_c2 b)) (len (d_index b)).

(** all sections of a material, in the order of iteration over its files and
    their sections *)
Definition all_secs (m : tmat) : list tsec :=
  flat_map (fun p => map snd (tf_secs (snd p))) (tm_files m).
Definition numbers (s : tsec) : Z * Z := (ts_mf s, ts_mt s).
Definition before (a b : Z * Z) : Prop := fst a < fst b \/ fst a = fst b /\ snd a < snd b.
(** lines of a section without its SEND *)
Definition line_count (s : tsec) (n : Z) : Prop :=
  exists ls, ts_text s = flat_map (fun l => l ++ [LF]) ls /\ Forall noLF ls /\ Z.of_nat (length ls) = n + 1.
(** the modification number an index gives for a section: 0 if it has no entry *)
Definition mod_of (idx : list dir) (mf mt md : Z) : Prop :=
  (exists d, In d idx /\ dmf d = mf /\ dmt d = mt /\ dmod d = md)
  \/ ((forall d, In d idx -> ~ (dmf d = mf /\ dmt d = mt)) /\ md = 0).
(** an index whose entries for each file are in ascending order *)
Fixpoint ordered_index (idx : list dir) : Prop :=
  match idx with
  | [] => True
  | d :: r => Forall (fun e => dmf e = dmf d -> dmt d < dmt e) r /\ ordered_index r
  end.
(** 1/451 is the first section of the material *)
Definition first_451 (m : tmat) : Prop :=
  forall mf mt, mat_hasMFMT m mf mt = true -> 1 <= mf /\ (mf = 1 -> 451 <= mt).

(** the index describes the material: one entry for each of its sections, in
    ascending order of ( MF, MT ), with the number of its lines *)
Definition entry_numbers (d : dir) : Z * Z := (dmf d, dmt d).
Definition describes (idx : list dir) (m : tmat) : Prop :=
  StronglySorted before (map entry_numbers idx)
  /\ (forall mf mt, mat_hasMFMT m mf mt = true <-> In (mf, mt) (map entry_numbers idx))
  /\ (forall d s n, In d idx -> mat_section m (dmf d) (dmt d) = Val s ->
       line_count s n -> 0 <= n < 2 ^ 32 -> dnc d = n).

(** a material whose directory can be updated: [s0] is its section 1/451, parsed
    as [old]; its numbers fit their columns, it has at least one line of
    description, and it is the first section of the material *)
Record ready (m : tmat) (s0 : tsec) (old : sect descr) : Prop := mkready
  { rd_made : made_mat m;
    rd_mat : 0 < tm_mat m < 10000;
    rd_sec : mat_section m 1 451 = Val s0;
    rd_old : sec_parse sec_451 s0 = Val old;
    rd_ids : good_ids old;
    rd_rep : rep_descr (s_body old);
    rd_txt : d_text (s_body old) <> [];
    rd_first : first_451 m;
    rd_num : forall mf mt, mat_hasMFMT m mf mt = true -> 0 < mf < 100 /\ 0 < mt < 1000;
    rd_len : len (all_secs m) < 2 ^ 31 }.
