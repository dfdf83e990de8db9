(** Spec.v -- the vocabulary in which the theorems of the Prop*.v files are
    stated.  Nothing here depends on the readers and printers of the model. *)
From Coq Require Import QArith.
From Verif Require Import Base Disco Records RealRound RealProofs.
Open Scope Z_scope.

(** the integer fits in w columns *)
Definition in_cols (w : nat) (z : Z) : Prop :=
  - 10 ^ (Z.of_nat w - 1) < z < 10 ^ Z.of_nat w.

(** MAT, MF, MT fit their 4, 2 and 3 columns *)
Definition good_tail (mat mf mt : Z) : Prop := in_cols 4 mat /\ in_cols 2 mf /\ in_cols 3 mt.

(** ENDF numbers: zero, or the double nearest to a decimal of at most 7 digits
    and exponent |E| < 10 (6 digits for |E| < 100, 5 digits beyond, |E| < 300) *)
Definition endf_real (x : real) : Prop :=
  (rman x = 0 /\ rexp x = 0)
  \/ exists D E, 10 ^ (zone E - 1) <= D < 10 ^ zone E /\ Z.abs E < 300
       /\ dec_double (rneg x) D (E - (zone E - 1)) = Some x.

(** a control record all of whose fields fit their columns *)
Definition ints_fit (c : cont) : Prop :=
  in_cols 11 (l1 c) /\ in_cols 11 (l2 c) /\ in_cols 11 (n1 c) /\ in_cols 11 (n2 c).
Definition endf_cont (c : cont) : Prop := endf_real (c1 c) /\ endf_real (c2 c) /\ ints_fit c.

(** l is sorted: every element is <= the next one *)
Fixpoint ascending {A} (le : A -> A -> Prop) (l : list A) : Prop :=
  match l with
  | a :: (b :: _) as l' => le a b /\ ascending le l'
  | _ => True
  end.
(** numerical order of doubles *)
Definition real_le (x y : real) : Prop := (valQ x <= valQ y)%Q.

(** the i-th line of a text (empty beyond the end) *)
Fixpoint nth_line (t : text) (i : nat) : text :=
  match i with
  | O => fst (next_line t)
  | S j => nth_line (snd (next_line t)) j
  end.
(** what is left after i lines *)
Fixpoint drop_lines (i : nat) (t : text) : text :=
  match i with O => t | S j => drop_lines j (snd (next_line t)) end.
(** number of lines: newlines, plus one for a last line without newline *)
Fixpoint lines_in (t : text) : nat :=
  match t with
  | [] => 0
  | c :: t' => if Ascii.eqb c LF then S (lines_in t')
               else match t' with [] => 1 | _ => lines_in t' end
  end.

(** fails with a std::exception *)
Definition rejected {A} (r : res A) : Prop :=
  exists e s, r = Err e s /\ is_std e = true.
(** does not succeed and no exception other than std::exception escapes *)
Definition never_other {A} (r : res A) : Prop :=
  match r with Ok _ _ => True | Err e _ => is_std e = true | UB => False end.

(** a LIST record built from ENDF numbers *)
Definition endf_list (l : listr) : Prop :=
  endf_real (lC1 l) /\ endf_real (lC2 l) /\ in_cols 11 (lL1 l) /\ in_cols 11 (lL2 l)
  /\ in_cols 11 (lN2 l) /\ in_cols 11 (Z.of_nat (length (lB l))) /\ Forall endf_real (lB l).
(** a TAB2 record as the constructor accepts it, with at least one region, whose
    fields fit their columns *)
Definition endf_tab2 (t : tab2) : Prop :=
  endf_real (tC1 t) /\ endf_real (tC2 t) /\ in_cols 11 (tL1 t) /\ in_cols 11 (tL2 t)
  /\ in_cols 11 (Z.of_nat (length (tbnd t))) /\ 0 <= last (tbnd t) 0
  /\ tbnd t <> [] /\ length (tbnd t) = length (tint t)
  /\ ascending Z.le (tbnd t)
  /\ Forall (in_cols 11) (tbnd t) /\ Forall (in_cols 11) (tint t).
Definition endf_tab1 (t : tab1) : Prop :=
  endf_tab2 (tbase t) /\ length (tx t) = length (ty t) /\ ascending real_le (tx t)
  /\ last (tbnd (tbase t)) 0 = Z.of_nat (length (tx t))
  /\ Forall endf_real (tx t) /\ Forall endf_real (ty t).

(** columns 67-70, 71-72, 73-75 of the line hold MAT, MF, MT *)
Definition carries (mat mf mt : Z) (l : text) : Prop :=
  read_int (col 66 4 l) = Some mat /\ read_int (col 70 2 l) = Some mf
  /\ read_int (col 72 3 l) = Some mt.
(** between the two states whole lines were consumed, the line counter advanced
    by their number, and they all satisfy P *)
Definition consumed (P : text -> Prop) (s s' : st) : Prop :=
  exists n, buf s' = drop_lines n (buf s) /\ line s' = line s + Z.of_nat n
            /\ forall i, (i < n)%nat -> P (nth_line (buf s) i).
(** the six fields of a control record, in their 11 columns each *)
Definition cont_in_columns (l : text) (a b : real) (c d e f : Z) : Prop :=
  read_real (col 0 11 l) = Some a /\ read_real (col 11 11 l) = Some b
  /\ read_int (col 22 11 l) = Some c /\ read_int (col 33 11 l) = Some d
  /\ read_int (col 44 11 l) = Some e /\ read_int (col 55 11 l) = Some f.
(** t consists of exactly n lines of 80 characters with MAT, MF and MT
    right-justified in columns 67-75 and blanks in columns 76-80 *)
Definition right_justified (w : nat) (z : Z) : text := blanks (w - length (show z)) ++ show z.
Definition endf_line (mat mf mt : Z) (l : text) : Prop :=
  length l = 80%nat /\ noLF l
  /\ col 66 4 l = right_justified 4 mat /\ col 70 2 l = right_justified 2 mf
  /\ col 72 3 l = right_justified 3 mt /\ col 75 5 l = blanks 5.
Definition endf_lines (mat mf mt n : Z) (t : text) : Prop :=
  exists ls, t = flat_map (fun l => l ++ [LF]) ls /\ Z.of_nat (length ls) = n
             /\ Forall (endf_line mat mf mt) ls.
