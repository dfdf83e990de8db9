(** TreeSpec.v -- what a tape looks like, independently of the code that indexes
    it: a TPID line, materials, a TEND line; a material is a sequence of files
    followed by MEND lines; a file is a sequence of sections followed by FEND
    lines; a section is a HEAD line, lines with MT /= 0 and one line with MT = 0,
    possibly followed by further SEND lines. *)
From Verif Require Import Base Disco Records Spec.
Open Scope Z_scope.

(** the line holds the structure division [d]: its fields are in their columns *)
Definition division_line (l : text) (d : sdiv) : Prop :=
  cont_in_columns l (c1 (sbase d)) (c2 (sbase d)) (l1 (sbase d)) (l2 (sbase d))
                    (n1 (sbase d)) (n2 (sbase d))
  /\ carries (smat d) (smf d) (smt d) l
  /\ -1 <= smat d /\ 0 <= smf d /\ 0 <= smt d.

Definition head_line (mat mf mt : Z) (l : text) : Prop :=
  mat <> 0 /\ mf <> 0 /\ mt <> 0
  /\ exists d, division_line l d /\ smat d = mat /\ smf d = mf /\ smt d = mt.
(** an end record: six zero fields, MT = 0 *)
Definition end_line (P : Z -> Z -> Prop) (l : text) : Prop :=
  exists d, division_line l d /\ rman (c1 (sbase d)) = 0 /\ rman (c2 (sbase d)) = 0
    /\ l1 (sbase d) = 0 /\ l2 (sbase d) = 0 /\ n1 (sbase d) = 0 /\ n2 (sbase d) = 0
    /\ smt d = 0 /\ P (smat d) (smf d).
Definition send_line := end_line (fun mat mf => 0 < mat /\ mf <> 0).
Definition fend_line := end_line (fun mat mf => 0 < mat /\ mf = 0).
Definition mend_line := end_line (fun mat mf => mat = 0 /\ mf = 0).
Definition tend_line := end_line (fun mat mf => mat = -1 /\ mf = 0).
(** a line of the body of a section *)
Definition body_line (l : text) : Prop := exists mat mf mt, carries mat mf mt l /\ mt <> 0.
Definition last_line (l : text) : Prop := exists mat mf, carries mat mf 0 l.
(** the tape identification: text in columns 1-66, number in columns 67-70 *)
Definition tpid_line (l : text) (i : tpid) : Prop :=
  tptext i = lj 66 (col 0 66 l) /\ carries (tpnum i) 0 0 l.

Definition lines_text (ls : list text) : text := flat_map (fun l => l ++ [LF]) ls.

Record sec_src := mkss { x_mat : Z; x_mf : Z; x_mt : Z; x_head : text; x_body : list text;
                         x_last : text; x_sends : list text }.
Record file_src := mkfs { x_secs : list sec_src; x_fends : list text }.
Record mat_src := mkms { x_files : list file_src; x_mends : list text }.
Record tape_src := mkts { x_tpid : text; x_mats : list mat_src; x_tend : text }.

(** the lines that belong to the section, and all lines *)
Definition sec_lines (s : sec_src) : list text := x_head s :: x_body s ++ [x_last s].
Definition sec_all (s : sec_src) : list text := sec_lines s ++ x_sends s.
Definition file_all (f : file_src) : list text := flat_map sec_all (x_secs f) ++ x_fends f.
Definition mat_all (m : mat_src) : list text := flat_map file_all (x_files m) ++ x_mends m.
Definition tape_all (t : tape_src) : list text :=
  x_tpid t :: flat_map mat_all (x_mats t) ++ [x_tend t].

Definition sec0 : sec_src := mkss 0 0 0 [] [] [] [].
Definition file0 : file_src := mkfs [] [].
(** the numbers of a file and of a material are those of its first HEAD *)
Definition f_mat (f : file_src) : Z := x_mat (hd sec0 (x_secs f)).
Definition f_mf (f : file_src) : Z := x_mf (hd sec0 (x_secs f)).
Definition m_mat (m : mat_src) : Z := f_mat (hd file0 (x_files m)).
Definition m_first_mf (m : mat_src) : Z := f_mf (hd file0 (x_files m)).

Definition sec_ok (s : sec_src) : Prop :=
  head_line (x_mat s) (x_mf s) (x_mt s) (x_head s)
  /\ Forall body_line (x_body s) /\ last_line (x_last s) /\ Forall send_line (x_sends s)
  /\ Forall noLF (sec_all s).
Definition file_ok (f : file_src) : Prop :=
  x_secs f <> [] /\ Forall sec_ok (x_secs f)
  /\ Forall (fun s => x_mf s = f_mf f) (x_secs f) /\ NoDup (map x_mt (x_secs f))
  /\ Forall fend_line (x_fends f) /\ Forall noLF (x_fends f).
Definition mat_ok (m : mat_src) : Prop :=
  x_files m <> [] /\ Forall file_ok (x_files m)
  /\ Forall (fun f => f_mat f = m_mat m) (x_files m) /\ NoDup (map f_mf (x_files m))
  /\ Forall mend_line (x_mends m) /\ Forall noLF (x_mends m).
(** the end records may be missing between two materials only if the next HEAD
    shows that a new material (and a new file) begins *)
Definition separated (m m' : mat_src) : Prop :=
  x_mends m = [] ->
    m_mat m <> m_mat m' /\
    (x_fends (last (x_files m) file0) = [] -> f_mf (last (x_files m) file0) <> m_first_mf m').
Fixpoint separated_all (l : list mat_src) : Prop :=
  match l with
  | a :: (b :: _) as l' => separated a b /\ separated_all l'
  | _ => True
  end.
Definition tape_ok (t : tape_src) : Prop :=
  (exists i, tpid_line (x_tpid t) i) /\ noLF (x_tpid t)
  /\ Forall mat_ok (x_mats t) /\ separated_all (x_mats t)
  /\ tend_line (x_tend t) /\ noLF (x_tend t).
