(** Py.v -- the sequences of the Python module: python/src/views.hpp:1-213.
    An any_view is modelled by the list of its elements and by the category it was
    erased to; what pybind11 and CPython do with the arguments (choice of the overload,
    conversion of an int, slice.indices) is not code of the repository and is modelled here
    from their documentation. *)
From Coq Require Import ZArith List Bool.
Import ListNotations.
Open Scope Z_scope.

(** not code: the Python exceptions that can arise here *)
Inductive pyexc := IndexError | TypeError | ValueError.
(** not code: what a Python call does; Undefined is undefined behaviour of the C++ below it *)
Inductive py (A : Type) := Gives (a : A) | Raises (e : pyexc) | Undefined.
Arguments Gives {A}. Arguments Raises {A}. Arguments Undefined {A}.
(** python/src/views.hpp:23-30 *)
Inductive category := Bidirectional | RandomAccess.
(** python/src/views.hpp:23-51 *)
Record view (A : Type) := mkview { v_cat : category; v_elts : list A }.
Arguments mkview {A}. Arguments v_cat {A}. Arguments v_elts {A}.
(** not code: the argument of view[ . ]: an int, a slice whose three parts may be None, something else *)
Inductive pykey := AnInt (i : Z) | ASlice (start stop step : option Z) | AnotherKey.

(** not code: conversion to int, to ptrdiff_t and to size_t *)
Definition py_i32 (z : Z) : Z := (z + 2 ^ 31) mod 2 ^ 32 - 2 ^ 31.
(** not code: conversion to ptrdiff_t *)
Definition py_i64 (z : Z) : Z := (z + 2 ^ 63) mod 2 ^ 64 - 2 ^ 63.
(** not code: conversion to size_t *)
Definition py_u64 (z : Z) : Z := z mod 2 ^ 64.

(** python/src/views.hpp:71-74,126-129: ranges::distance *)
Definition distance {A} (v : view A) : Z := Z.of_nat (length (v_elts v)).
(** python/src/views.hpp:133,151: ranges::index; outside the view the behaviour is undefined *)
Definition view_index {A} (v : view A) (i : Z) : py A :=
  if i <? 0 then Undefined else
  match nth_error (v_elts v) (Z.to_nat i) with Some a => Gives a | None => Undefined end.
(** python/src/views.hpp:111-122: i is an int, length a ptrdiff_t; the sum is converted to int *)
Definition check_index (i length : Z) : py Z :=
  let i := if i <? 0 then py_i32 (i + length) else i in
  if (i <? 0) || (i >=? length) then Raises IndexError else Gives i.
(** python/src/views.hpp:130-137 *)
Definition get_int {A} (v : view A) (i : Z) : py A :=
  match check_index i (distance v) with
  | Gives j => view_index v j | Raises e => Raises e | Undefined => Undefined
  end.

(** not code: CPython, the value of a part of a slice as a Py_ssize_t *)
Definition ssize (z : Z) : Z := Z.max (- 2 ^ 63) (Z.min (2 ^ 63 - 1) z).
(** not code: CPython, PySlice_Unpack: step, start and stop; None if the step is 0 *)
Definition slice_unpack (start stop step : option Z) : option (Z * Z * Z) :=
  let k := match step with None => 1 | Some z => Z.max (- (2 ^ 63 - 1)) (ssize z) end in
  if k =? 0 then None else
  Some (match start with None => if k <? 0 then 2 ^ 63 - 1 else 0 | Some z => ssize z end,
        match stop with None => if k <? 0 then - 2 ^ 63 else 2 ^ 63 - 1 | Some z => ssize z end, k).
(** not code: CPython, PySlice_AdjustIndices, one of the two bounds *)
Definition slice_bound (x length k : Z) : Z :=
  if x <? 0 then (if x + length <? 0 then (if k <? 0 then -1 else 0) else x + length)
  else if x >=? length then (if k <? 0 then length - 1 else length) else x.
(** not code: CPython, PySlice_AdjustIndices, the number of elements *)
Definition slice_length (start stop k : Z) : Z :=
  if k <? 0 then (if stop <? start then (start - stop - 1) / (- k) + 1 else 0)
  else (if start <? stop then (stop - start - 1) / k + 1 else 0).
(** python/src/views.hpp:148-153: the counter is an unsigned int, the others are size_t; a loop that
    does not end fills the memory *)
Fixpoint slice_loop {A} (v : view A) (fuel : nat) (i length start step : Z) : py (list A) :=
  if i <? length then
    match fuel with
    | O => Undefined
    | S f =>
        match view_index v (py_i64 start) with
        | Gives a =>
            match slice_loop v f ((i + 1) mod 2 ^ 32) length (py_u64 (start + step)) step with
            | Gives l => Gives (a :: l) | e => e
            end
        | Raises e => Raises e | Undefined => Undefined
        end
    end
  else Gives [].
(** python/src/views.hpp:138-160 *)
Definition get_slice {A} (v : view A) (start stop step : option Z) : py (list A) :=
  match slice_unpack start stop step with
  | None => Raises ValueError
  | Some (b, e, k) =>
      let n := distance v in
      let b := slice_bound b n k in let e := slice_bound e n k in
      let length := slice_length b e k in
      slice_loop v (Z.to_nat length) 0 (py_u64 length) (py_u64 b) (py_u64 k)
  end.
(** python/src/views.hpp:67-101,108-187: __getitem__.  A bidirectional view has none; the overloads are tried in the order of their
    definition and an integer is one only if it fits an int *)
Definition getitem {A} (v : view A) (key : pykey) : py (A + list A) :=
  match v_cat v with
  | Bidirectional => Raises TypeError
  | RandomAccess =>
      match key with
      | AnInt i => if (- 2 ^ 31 <=? i) && (i <? 2 ^ 31)
                   then match get_int v i with Gives a => Gives (inl a) | Raises e => Raises e | Undefined => Undefined end
                   else Raises TypeError
      | ASlice a b c => match get_slice v a b c with Gives l => Gives (inr l) | Raises e => Raises e | Undefined => Undefined end
      | AnotherKey => Raises TypeError
      end
  end.
(** python/src/views.hpp:71-74,126-129: __len__ *)
Definition py_len {A} (v : view A) : Z := distance v.
(** python/src/views.hpp:75-83,161-169: __iter__, the elements it yields *)
Definition py_iter {A} (v : view A) : list A := v_elts v.
(** python/src/views.hpp:84-88,170-174: front of an empty view is undefined *)
Definition py_front {A} (v : view A) : py A := match v_elts v with [] => Undefined | a :: _ => Gives a end.
(** python/src/views.hpp:89-94,175-180: to_list *)
Definition py_to_list {A} (v : view A) : list A := v_elts v.
(** not code: pybind11 rejects a call whose self is not of the class in the signature *)
Definition self_is {A B} (c : category) (f : view A -> B) (v : view A) : py B :=
  match c, v_cat v with
  | Bidirectional, Bidirectional | RandomAccess, RandomAccess => Gives (f v)
  | _, _ => Raises TypeError
  end.
(** python/src/views.hpp:95-100,181-186: copy.  Both functions are declared for a BasicRandomAccessAnyView *)
Definition py_copy {A} (v : view A) : py (list A) := self_is RandomAccess py_to_list v.
