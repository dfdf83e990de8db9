(** Disco.v -- the fixed-width field codecs.

    ENDFtk delegates these to njoy tools "disco" (tools/disco/Integer.hpp,
    ENDF.hpp, Character.hpp, Column.hpp, Record.hpp), which is not part of
    /repo.  The ENDFtk side is /repo/src/ENDFtk/record/Integer.hpp:13-20,
    record/Real.hpp:13-19, record/Character.hpp:14-21, record/Base.hpp:30-31.
    The behaviour modelled here is the assumption listed in DESIGN.md. *)
From Verif Require Import Base.
Open Scope Z_scope.

(** ** Decimal digits *)

(** disco::Integer (outside /repo), used through record/Integer.hpp:1-22 *)
Definition digit_char (d : Z) : ascii := ascii_of_nat (48 + Z.to_nat d).
(** disco::Integer (outside /repo), used through record/Integer.hpp:1-22 *)
Definition digit_val (c : ascii) : option Z :=
  let n := nat_of_ascii c in
  if (48 <=? n)%nat && (n <=? 57)%nat then Some (Z.of_nat n - 48) else None.
(** disco::Integer (outside /repo), used through record/Integer.hpp:1-22 *)
Definition is_digit (c : ascii) : bool :=
  match digit_val c with Some _ => true | None => false end.

(** decimal digits of a non-negative integer, most significant first *)
(** disco::Integer (outside /repo), used through record/Integer.hpp:1-22 *)
Fixpoint show_aux (fuel : nat) (n : Z) (acc : text) : text :=
  match fuel with
  | O => acc
  | S f => let acc' := digit_char (n mod 10) :: acc in
           if n <? 10 then acc' else show_aux f (n / 10) acc'
  end.
(** disco::Integer (outside /repo), used through record/Integer.hpp:1-22 *)
Definition show_nonneg (n : Z) : text := show_aux (S (Z.to_nat (Z.log2 n))) n [].
(** an integer as an ostream prints it *)
(** disco::Integer (outside /repo), used through record/Integer.hpp:1-22 *)
Definition show (z : Z) : text :=
  if z <? 0 then "-"%char :: show_nonneg (- z) else show_nonneg z.

(** disco::Integer (outside /repo), used through record/Integer.hpp:1-22 *)
Definition dval (c : ascii) : Z := match digit_val c with Some d => d | None => 0 end.
(** value of a digit string *)
(** disco::Integer (outside /repo), used through record/Integer.hpp:1-22 *)
Definition value (ds : text) : Z := fold_left (fun a c => 10 * a + dval c) ds 0.

(** disco::Integer (outside /repo), used through record/Integer.hpp:1-22 *)
Fixpoint span (p : ascii -> bool) (t : text) : text * text :=
  match t with
  | [] => ([], [])
  | c :: t' => if p c then let (a, b) := span p t' in (c :: a, b) else ([], t)
  end.

(** disco::Integer (outside /repo), used through record/Integer.hpp:1-22 *)
Definition is_blank (c : ascii) : bool := Ascii.eqb c SP.
(** disco::Integer (outside /repo), used through record/Integer.hpp:1-22 *)
Definition drop_blanks (t : text) : text := snd (span is_blank t).
(** disco::Integer (outside /repo), used through record/Integer.hpp:1-22 *)
Definition all_blank (t : text) : bool := forallb is_blank t.

(** optional sign: true for minus *)
(** disco::Integer (outside /repo), used through record/Integer.hpp:1-22 *)
Definition take_sign (t : text) : bool * text :=
  match t with
  | c :: t' => if Ascii.eqb c "-"%char then (true, t')
               else if Ascii.eqb c "+"%char then (false, t') else (false, t)
  | [] => (false, [])
  end.

(** disco::Integer<w>::read on the characters of the field *)
Definition read_int (t : text) : option Z :=
  match drop_blanks t with
  | [] => Some 0
  | t1 => let (neg, t2) := take_sign t1 in
          let (ds, t3) := span is_digit t2 in
          match ds with
          | [] => None
          | _ => if all_blank t3 then Some (if neg then - value ds else value ds)
                 else None
          end
  end.

(** right-justified (std::setw), left-justified *)
(** disco::Integer (outside /repo), used through record/Integer.hpp:1-22 *)
Definition rj (w : nat) (t : text) : text := blanks (w - length t) ++ t.
(** disco::Integer (outside /repo), used through record/Integer.hpp:1-22 *)
Definition lj (w : nat) (t : text) : text := t ++ blanks (w - length t).

(** disco::Integer (outside /repo), used through record/Integer.hpp:1-22 *)
Definition pr_int (w : nat) (z : Z) : text := rj w (show z).
(** disco::Column (outside /repo), used in ControlRecord/src/print.hpp:15-24 *)
Definition pr_col (w : nat) : text := blanks w.

(** the integer fits in [w] columns *)
(** disco::Integer (outside /repo), used through record/Integer.hpp:1-22 *)
Definition fits (w : nat) (z : Z) : bool := (length (show z) <=? w)%nat.

(** ** Reals: finite binary64 values

    [mkreal s m e] is (-1)^s * m * 2^e.  Infinities and NaN are not modelled. *)
(** not code: IEEE 754 double and its operations *)
Record real := mkreal { rneg : bool; rman : Z; rexp : Z }.
(** not code: IEEE 754 double and its operations *)
Definition rzero : real := mkreal false 0 0.

(** [x == 0.0] *)
(** not code: IEEE 754 double and its operations *)
Definition ris0 (x : real) : bool := rman x =? 0.

(** C++ comparison of doubles: compare the numbers *)
(** not code: IEEE 754 double and its operations *)
Definition rsig (x : real) : Z := if rneg x then - rman x else rman x.
(** not code: IEEE 754 double and its operations *)
Definition rle (x y : real) : bool :=
  let e := Z.min (rexp x) (rexp y) in
  rsig x * 2 ^ (rexp x - e) <=? rsig y * 2 ^ (rexp y - e).
(** not code: IEEE 754 double and its operations *)
Definition req (x y : real) : bool := rle x y && rle y x.
(** not code: IEEE 754 double and its operations *)
Definition rlt (x y : real) : bool := negb (rle y x).

(** round a/b (a >= 0, b > 0) to the nearest integer, ties to even *)
(** not code: IEEE 754 double and its operations *)
Definition rne (a b : Z) : Z :=
  let q := a / b in
  let r := a mod b in
  if 2 * r <? b then q
  else if b <? 2 * r then q + 1
  else if Z.even q then q else q + 1.

(** number of digits of n >= 0 in base beta (0 for n = 0) *)
(** not code: IEEE 754 double and its operations *)
Fixpoint ndig_aux (beta : Z) (fuel : nat) (n : Z) : Z :=
  match fuel with
  | O => 0
  | S f => if n <=? 0 then 0 else 1 + ndig_aux beta f (n / beta)
  end.
(** not code: IEEE 754 double and its operations *)
Definition ndig (beta n : Z) : Z := ndig_aux beta (S (Z.to_nat (Z.log2 n))) n.

(** floor(log_beta(a/b)) for a, b > 0 *)
(** not code: IEEE 754 double and its operations *)
Definition flog (beta a b : Z) : Z :=
  if b <=? a then ndig beta (a / b) - 1 else - ndig beta ((b - 1) / a).

(** a/b / beta^e as a quotient of integers *)
(** not code: IEEE 754 double and its operations *)
Definition scn (beta a e : Z) : Z := if e <? 0 then a * beta ^ (- e) else a.
(** not code: IEEE 754 double and its operations *)
Definition scd (beta b e : Z) : Z := if e <? 0 then b else b * beta ^ e.

(** a/b (positive) rounded to p digits in base beta with exponent at least
    [emin]: mantissa and exponent *)
(** not code: IEEE 754 double and its operations *)
Definition rnd (beta p emin a b : Z) : Z * Z :=
  let e := Z.max (flog beta a b - (p - 1)) emin in
  let m := rne (scn beta a e) (scd beta b e) in
  if m =? beta ^ p then (beta ^ (p - 1), e + 1) else (m, e).

(** nearest binary64 to (-1)^s a/b, a >= 0; None if it overflows *)
(** not code: IEEE 754 double and its operations *)
Definition to_double (s : bool) (a b : Z) : option real :=
  if a =? 0 then Some (mkreal s 0 0)
  else let (m, e) := rnd 2 53 (-1074) a b in
       if m =? 0 then Some (mkreal s 0 0)
       else if 971 <? e then None else Some (mkreal s m e).

(** nearest p-digit decimal of a positive double; exponent of the first digit *)
(** disco::ENDF (outside /repo), used through record/Real.hpp:1-25 *)
Definition to_dec (p m e : Z) : Z * Z :=
  let (d, k) := rnd 10 p (-100000) (scn 2 m (- e)) (scd 2 1 (- e)) in
  (d, k + (p - 1)).

(** digits d (with p digits) and decimal exponent E in the 11 columns:
    7 digits for |E| < 10, 6 for |E| < 100, 5 otherwise *)
(** disco::ENDF (outside /repo), used through record/Real.hpp:1-25 *)
Definition fmt (s : bool) (p d E : Z) : text :=
  let P := if Z.abs E <? 10 then 7 else if Z.abs E <? 100 then 6 else 5 in
  let ds0 := show_nonneg (d * 10 ^ (P - p)) in
  let ds := repeat "0"%char (Z.to_nat P - length ds0) ++ ds0 in
  (if s then "-"%char else SP)
    :: firstn 1 ds ++ "."%char :: skipn 1 ds
    ++ (if E <? 0 then "-"%char else "+"%char) :: show_nonneg (Z.abs E).

(** disco::ENDF::write *)
Definition write_real (x : real) : text :=
  if rman x =? 0 then fmt (rneg x) 7 0 0
  else let (d, E) := to_dec 7 (rman x) (rexp x) in
       if Z.abs E <? 10 then fmt (rneg x) 7 d E
       else let (d, E) := to_dec 6 (rman x) (rexp x) in
            if Z.abs E <? 100 then fmt (rneg x) 6 d E
            else let (d, E) := to_dec 5 (rman x) (rexp x) in
                 fmt (rneg x) 5 d E.

(** optional exponent part: letter and/or sign, digits *)
(** disco::ENDF (outside /repo), used through record/Real.hpp:1-25 *)
Definition is_expchar (c : ascii) : bool :=
  Ascii.eqb c "e"%char || Ascii.eqb c "E"%char ||
  Ascii.eqb c "d"%char || Ascii.eqb c "D"%char.
(** disco::ENDF (outside /repo), used through record/Real.hpp:1-25 *)
Definition read_exp (t : text) : option (Z * text) :=
  let digits (t : text) :=
    let (neg, t1) := take_sign t in
    let (ds, t2) := span is_digit t1 in
    match ds with
    | [] => None
    | _ => Some (if neg then - value ds else value ds, t2)
    end in
  match t with
  | [] => Some (0, [])
  | c :: t' => if is_expchar c then digits t'
               else if Ascii.eqb c "+"%char || Ascii.eqb c "-"%char then digits t
               else Some (0, t)
  end.

(** (-1)^s * n * 10^k as a double *)
(** disco::ENDF (outside /repo), used through record/Real.hpp:1-25 *)
Definition dec_double (s : bool) (n k : Z) : option real :=
  if k <? 0 then to_double s n (10 ^ (- k)) else to_double s (n * 10 ^ k) 1.

(** disco::ENDF::read on the characters of the field *)
Definition read_real (t : text) : option real :=
  match drop_blanks t with
  | [] => Some rzero
  | t1 =>
    let (neg, t2) := take_sign t1 in
    let (ip, t3) := span is_digit t2 in
    let (fp, t4) := match t3 with
                    | c :: t' => if Ascii.eqb c "."%char then span is_digit t' else ([], t3)
                    | [] => ([], [])
                    end in
    match ip ++ fp with
    | [] => None
    | _ => match read_exp t4 with
           | Some (k, t5) =>
               if all_blank t5
               then dec_double neg (value (ip ++ fp)) (k - Z.of_nat (length fp))
               else None
           | None => None
           end
    end
  end.

(** ENDF-representable: printed in 11 columns and read back unchanged *)
(** not code: used in statements *)
Definition okr (x : real) : Prop :=
  length (write_real x) = 11%nat /\ read_real (write_real x) = Some x.

(** the double nearest to an integer (implicit conversion int -> double) *)
(** not code: conversions between int and double *)
Definition of_int (z : Z) : real :=
  match to_double (z <? 0) (Z.abs z) 1 with Some x => x | None => rzero end.

(** int( std::round( x ) ): nearest integer, halves away from zero *)
(** not code: conversions between int and double *)
Definition round_int (x : real) : Z :=
  let n := 2 * scn 2 (rman x) (- rexp x) + scd 2 1 (- rexp x) in
  let q := n / (2 * scd 2 1 (- rexp x)) in
  if rneg x then - q else q.

(** ** Field readers *)

(** a field consumes at most w characters and stops before a newline *)
(** disco::Record (outside /repo), fields of a line, see record/Base.hpp:66-87 *)
Fixpoint field (w : nat) (t : text) : text * text :=
  match w, t with
  | O, _ => ([], t)
  | _, [] => ([], [])
  | S w', c :: t' => if Ascii.eqb c LF then ([], t)
                     else let (a, b) := field w' t' in (c :: a, b)
  end.

(** disco::Record (outside /repo), fields of a line, see record/Base.hpp:66-87 *)
Definition rd_field (w : nat) : M text :=
  fun s => let (a, b) := field w (buf s) in Ok a (mkst b (line s)).

(** disco::Record (outside /repo), fields of a line, see record/Base.hpp:66-87 *)
Definition of_opt {A} (o : option A) : M A :=
  match o with Some a => ret a | None => throw EStd end.

(** record/Integer.hpp:1-26 *)
Definition rd_int (w : nat) : M Z := t <- rd_field w ;; of_opt (read_int t).
(** record/Real.hpp:1-25 *)
Definition rd_real : M real := t <- rd_field 11 ;; of_opt (read_real t).
(** disco::Character<w>::read: always w characters, blank padded *)
Definition rd_chars (w : nat) : M text := t <- rd_field w ;; ret (lj w t).
(** end of a disco::Record without RetainCarriage: move past the newline *)
Definition rd_eol : M unit := fun s => Ok tt (mkst (snd (next_line (buf s))) (line s)).
