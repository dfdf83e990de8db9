(** SecSpec.v -- vocabulary for the theorems about section components and
    sections.  Depends on the data types of the model only. *)
From Verif Require Import Base Disco Records RealRound RealProofs Spec.
Open Scope Z_scope.

(** numbers that fit in a C++ int *)
Definition int32 (z : Z) : Prop := -2147483648 <= z < 2147483648.

(** [n] is the value of the long [z] converted to an int *)
Definition as_int (z n : Z) : Prop := int32 n /\ (z - n) mod 2 ^ 32 = 0.
Definition len {A} (l : list A) : Z := Z.of_nat (length l).

(** ** numbers representable in the columns *)
Definition rep_tab2 (t : tab2) : Prop :=
  endf_real (tC1 t) /\ endf_real (tC2 t) /\ in_cols 11 (tL1 t) /\ in_cols 11 (tL2 t)
  /\ in_cols 11 (Z.of_nat (length (tbnd t)))
  /\ Forall (in_cols 11) (tbnd t) /\ Forall (in_cols 11) (tint t).
Definition rep_tab1 (t : tab1) : Prop :=
  rep_tab2 (tbase t) /\ Forall endf_real (tx t) /\ Forall endf_real (ty t).
Definition rep_dir (d : dir) : Prop :=
  in_cols 33 (dmf d) /\ in_cols 11 (dmt d) /\ in_cols 11 (dnc d) /\ in_cols 11 (dmod d).
Definition rep_seq {C} (repc : C -> Prop) (q : iseq C) : Prop :=
  rep_tab2 (istab q) /\ last (tbnd (istab q)) 0 < 2 ^ 31 /\ Forall repc (isrec q).

(** ** consistency of a table: what the constructors require *)
Definition inv_tab2 (t : tab2) : Prop :=
  tbnd t <> [] /\ length (tint t) = length (tbnd t) /\ ascending Z.le (tbnd t) /\ 0 <= last (tbnd t) 0.
Definition inv_tab1 (t : tab1) : Prop :=
  inv_tab2 (tbase t) /\ length (ty t) = length (tx t) /\ ascending real_le (tx t)
  /\ last (tbnd (tbase t)) 0 = Z.of_nat (length (tx t)).
(** a TAB2 with as many records as points (modulo 2^32, see DESIGN.md) *)
Definition inv_seq {C} (invc : C -> Prop) (invs : list C -> Prop) (q : iseq C) : Prop :=
  inv_tab2 (istab q) /\ 0 < Z.of_nat (length (isrec q)) < 2 ^ 31
  /\ (last (tbnd (istab q)) 0 mod 2 ^ 32 = Z.of_nat (length (isrec q)))
  /\ Forall invc (isrec q) /\ invs (isrec q).
Definition any {A} (x : A) : Prop := True.

(** ** readers and printers of a component

    [codec rep inv rd pr nc]: for numbers MAT, MF, MT that fit their columns,
    - printing a representable consistent value and reading it back gives the
      same value, consumes exactly the printed text, whatever follows, and
      advances the line counter by NC;
    - the printed text is exactly NC lines of 80 columns;
    - if reading any text succeeds, every consumed line carries MAT, MF, MT, and
      the line counter advanced by their number;
    - and the value is consistent. *)
Record codec {A} (rep inv : A -> Prop) (rd : Z -> Z -> Z -> M A)
       (pr : A -> Z -> Z -> Z -> text) (nc : A -> Z) : Prop := mkcodec
  { cd_reads : forall mat mf mt x rest ln, good_tail mat mf mt -> rep x -> inv x ->
      rd mat mf mt (mkst (pr x mat mf mt ++ rest) ln) = Ok x (mkst rest (ln + nc x));
    cd_layout : forall mat mf mt x, good_tail mat mf mt -> rep x -> inv x ->
      endf_lines mat mf mt (nc x) (pr x mat mf mt);
    cd_lines : forall mat mf mt s x s', rd mat mf mt s = Ok x s' ->
      consumed (carries mat mf mt) s s';
    cd_inv : forall mat mf mt s x s', rd mat mf mt s = Ok x s' -> inv x }.

(** only std::exception escapes and there is no undefined behaviour *)
Definition safe {A} (rd : Z -> Z -> Z -> M A) : Prop :=
  forall mat mf mt s, never_other (rd mat mf mt s).

(** ** sections *)
From Verif Require Import Sections.
(** the SEND line as written *)
Definition send_line (mat mf : Z) : text :=
  blanks 66 ++ right_justified 4 mat ++ right_justified 2 mf ++ right_justified 3 0 ++ blanks 5.
(** a line that ends section: zeros in columns 1-66, MAT, MF, 0 in columns 67-75 *)
Definition ends_section (mat mf : Z) (l : text) : Prop :=
  carries mat mf 0 l /\ exists a b, cont_in_columns l a b 0 0 0 0 /\ rman a = 0 /\ rman b = 0.
(** ZA and AWR of an ENDF section *)
Definition good_ids {B} (x : sect B) : Prop :=
  0 < s_za x < 10 ^ 7 /\ endf_real (s_awr x) /\ real_le rzero (s_awr x).
(** the section number fits the class: the one in the class name, or any that the
    class allows for the contents *)
Definition allowed {B} (k : skind B) (mt : Z) (b : B) : Prop :=
  match k_for k with Some P => P mt b | None => True end.
Definition good_number {B} (k : skind B) (x : sect B) : Prop :=
  match k_fix k with Some n => s_mt x = n | None => 0 < s_mt x < 1000 end /\ allowed k (s_mt x) (s_body x).
Definition head_ints (h : sdiv) : Z * Z * Z * Z :=
  let c := sbase h in (l1 c, l2 c, n1 c, n2 c).

Record section_rt {B} (k : skind B) (rep inv : B -> Prop) : Prop := mksc
  { (** print, then read: the same section, all lines consumed; NC() lines of 80
        columns, then SEND *)
    sc_round_trip : forall x mat, 0 < mat < 10000 -> good_ids x -> good_number k x ->
      rep (s_body x) -> inv (s_body x) ->
      exists body,
        pr_section k x mat (k_mf k) = Val (body ++ send_line mat (k_mf k) ++ [LF])
        /\ endf_lines mat (k_mf k) (s_mt x) (nc_section k x) body
        /\ forall rest ln,
             parse_section k mat (mkst ((body ++ send_line mat (k_mf k) ++ [LF]) ++ rest) ln)
             = Ok x (mkst rest (ln + nc_section k x + 1));
    (** whatever is read: consistent, own lines only, closed by its SEND *)
    sc_sound : forall h mat s x s', rd_section k h mat s = Ok x s' ->
      (k_chk k = true -> smat h = mat /\ smf h = k_mf k)
      /\ s_za x = round_int (c1 (sbase h)) /\ s_awr x = c2 (sbase h) /\ s_mt x = k_mt k h
      /\ 1 <= s_za x /\ real_le rzero (s_awr x) /\ (k_fix k = None -> 1 <= s_mt x)
      /\ inv (s_body x) /\ allowed k (s_mt x) (s_body x)
      /\ exists s1, consumed (carries (k_rmat k h mat) (k_mf k) (k_rmt k h)) s s1
           /\ consumed (ends_section mat (k_mf k)) s1 s' /\ line s' = line s1 + 1;
    (** only these lines matter: on any text that begins with them the result is the same *)
    sc_local : forall h mat s x s', rd_section k h mat s = Ok x s' -> let n := line s' - line s in
      forall t ln, (forall i, Z.of_nat i < n -> nth_line t i = nth_line (buf s) i) ->
      rd_section k h mat (mkst t ln) = Ok x (mkst (drop_lines (Z.to_nat n) t) (ln + n));
    (** ... and what stands before the SEND line is read from the lines before it *)
    sc_body : forall h mat s x s', rd_section k h mat s = Ok x s' -> let n := line s' - line s - 1 in
      forall t ln, (forall i, Z.of_nat i < n -> nth_line t i = nth_line (buf s) i) ->
      k_read k h (k_rmat k h mat) (k_mf k) (k_rmt k h) (mkst t ln)
      = Ok (s_body x) (mkst (drop_lines (Z.to_nat n) t) (ln + n)) }.
(** the same without the lines, for classes where short lines spoil them *)
Record section_core {B} (k : skind B) (rep inv : B -> Prop) : Prop := mkcore
  { so_round_trip : forall x mat, 0 < mat < 10000 -> good_ids x -> good_number k x ->
      rep (s_body x) -> inv (s_body x) ->
      exists body,
        pr_section k x mat (k_mf k) = Val (body ++ send_line mat (k_mf k) ++ [LF])
        /\ endf_lines mat (k_mf k) (s_mt x) (nc_section k x) body
        /\ forall rest ln,
             parse_section k mat (mkst ((body ++ send_line mat (k_mf k) ++ [LF]) ++ rest) ln)
             = Ok x (mkst rest (ln + nc_section k x + 1));
    so_sound : forall h mat s x s', rd_section k h mat s = Ok x s' ->
      (k_chk k = true -> smat h = mat /\ smf h = k_mf k)
      /\ s_za x = round_int (c1 (sbase h)) /\ s_awr x = c2 (sbase h) /\ s_mt x = k_mt k h
      /\ 1 <= s_za x /\ real_le rzero (s_awr x) /\ (k_fix k = None -> 1 <= s_mt x)
      /\ inv (s_body x) /\ allowed k (s_mt x) (s_body x) }.
(** ... and the lines, where the text after the HEAD satisfies [whole] *)
Definition section_lines {B} (k : skind B) (whole : sdiv -> text -> Prop) : Prop :=
  forall h mat s x s', rd_section k h mat s = Ok x s' -> whole h (buf s) ->
    exists s1, consumed (carries (k_rmat k h mat) (k_mf k) (k_rmt k h)) s s1
      /\ consumed (ends_section mat (k_mf k)) s1 s' /\ line s' = line s1 + 1.
(** for a HEAD with ZA in the range of int only std::exception escapes *)
Definition section_safe {B} (k : skind B) : Prop := forall h mat s,
  int32 (round_int (c1 (sbase h))) -> never_other (rd_section k h mat s).
Definition section_codec {B} (k : skind B) (rep inv : B -> Prop) : Prop :=
  section_rt k rep inv /\ section_safe k.
