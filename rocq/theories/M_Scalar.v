(** * Model: scalar operations of equal.h, compare.h and missing.h *)
From Verif Require Import Base M_Double.

(** CHARSXP: [None] is [NA_STRING], [Some bytes] an interned, encoding
    normalised string (bytes in 1..255; C strings contain no NUL). *)
Definition rstr : Type := option (list Z).

Fixpoint bytes_eqb (a b : list Z) : bool :=
  match a, b with
  | [], [] => true
  | x :: a', y :: b' => (x =? y)%Z && bytes_eqb a' b'
  | _, _ => false
  end.
(** Pointer equality of two CHARSXPs.  Simplification: R interns CHARSXPs, so
    after [vec_normalize_encoding()] equal contents have equal pointers. *)
Definition str_ptr_eqb (a b : rstr) : bool :=
  match a, b with
  | None, None => true
  | Some x, Some y => bytes_eqb x y
  | _, _ => false
  end.

(** C [strcmp] on NUL-terminated byte strings: sign of the first difference
    (a terminator compares as byte 0, below every other byte). *)
Fixpoint c_strcmp (a b : list Z) : Z :=
  match a, b with
  | [], [] => 0%Z
  | [], _ :: _ => (-1)%Z
  | _ :: _, [] => 1%Z
  | x :: a', y :: b' => if (x <? y)%Z then (-1)%Z else if (y <? x)%Z then 1%Z else c_strcmp a' b'
  end.

(** src/missing.h:15-42 *)
Definition lgl_is_missing (x : Z) : bool := (x =? NA_LOGICAL)%Z.
Definition int_is_missing (x : Z) : bool := (x =? NA_INTEGER)%Z.
Definition dbl_is_missing (x : dbl) : bool := isnan x.
Definition cpl_is_missing (r i : dbl) : bool := dbl_is_missing r || dbl_is_missing i.
Definition chr_is_missing (x : rstr) : bool := str_ptr_eqb x None.
Definition raw_is_missing (x : Z) : bool := false.

(** src/equal.h:16-39 *)
Definition lgl_equal_na_equal (x y : Z) : bool := (x =? y)%Z.
Definition int_equal_na_equal (x y : Z) : bool := (x =? y)%Z.
Definition dbl_equal_na_equal (x y : dbl) : bool :=
  match dbl_classify x with
  | DblMissing => dbl_class_eqb (dbl_classify y) DblMissing
  | DblNan => dbl_class_eqb (dbl_classify y) DblNan
  | DblNumber => if isnan y then false else c_deq x y
  end.
Definition cpl_equal_na_equal (xr xi yr yi : dbl) : bool :=
  dbl_equal_na_equal xr yr && dbl_equal_na_equal xi yi.
Definition chr_equal_na_equal (x y : rstr) : bool := str_ptr_eqb x y.
Definition raw_equal_na_equal (x y : Z) : bool := (x =? y)%Z.

(** C [int] result of a boolean expression. *)
Definition b2i (b : bool) : Z := if b then 1%Z else 0%Z.

(** src/equal.h:97-139; the result is an [int], possibly NA_LOGICAL. *)
Definition lgl_equal_na_propagate (x y : Z) : Z :=
  if lgl_is_missing x || lgl_is_missing y then NA_LOGICAL else b2i (lgl_equal_na_equal x y).
Definition int_equal_na_propagate (x y : Z) : Z :=
  if int_is_missing x || int_is_missing y then NA_LOGICAL else b2i (int_equal_na_equal x y).
Definition dbl_equal_na_propagate (x y : dbl) : Z :=
  if dbl_is_missing x || dbl_is_missing y then NA_LOGICAL else b2i (c_deq x y).
Definition cpl_equal_na_propagate (xr xi yr yi : dbl) : Z :=
  let real_equal := dbl_equal_na_propagate xr yr in
  let imag_equal := dbl_equal_na_propagate xi yi in
  if (real_equal =? NA_LOGICAL)%Z || (imag_equal =? NA_LOGICAL)%Z then NA_LOGICAL
  else b2i (negb (real_equal =? 0)%Z && negb (imag_equal =? 0)%Z).
Definition chr_equal_na_propagate (x y : rstr) : Z :=
  if chr_is_missing x || chr_is_missing y then NA_LOGICAL else b2i (chr_equal_na_equal x y).
Definition raw_equal_na_propagate (x y : Z) : Z := b2i (raw_equal_na_equal x y).

(** src/compare.h:16-29 *)
Definition int_compare_scalar (x y : Z) : Z := (b2i (y <? x)%Z - b2i (x <? y)%Z)%Z.
Definition dbl_compare_scalar (x y : dbl) : Z := (b2i (c_dgt x y) - b2i (c_dlt x y))%Z.
(** [cmp / abs(cmp)] divides by zero when [strcmp] returns 0. *)
Definition chr_compare_scalar (x y : list Z) : res Z :=
  let cmp := c_strcmp x y in
  if (cmp =? 0)%Z then UB "division by zero in chr_compare_scalar" else Ok (Z.quot cmp (Z.abs cmp)).

(** src/compare.h:44-98 *)
Definition lgl_compare_na_equal (x y : Z) : Z := int_compare_scalar x y.
Definition int_compare_na_equal (x y : Z) : Z := int_compare_scalar x y.
Definition dbl_compare_na_equal (x y : dbl) : Z :=
  match dbl_classify x, dbl_classify y with
  | DblNumber, DblNumber => dbl_compare_scalar x y
  | DblNumber, DblMissing => 1
  | DblNumber, DblNan => 1
  | DblMissing, DblNumber => -1
  | DblMissing, DblMissing => 0
  | DblMissing, DblNan => 1
  | DblNan, DblNumber => -1
  | DblNan, DblMissing => -1
  | DblNan, DblNan => 0
  end%Z.
(** [r_str_c_string(NA_STRING)] is never reached here; the model's [None] case
    after the missingness tests is unreachable. *)
Definition chr_compare_na_equal (x y : rstr) : res Z :=
  if chr_equal_na_equal x y then Ok 0%Z
  else if chr_is_missing x then Ok (-1)%Z
  else if chr_is_missing y then Ok 1%Z
  else match x, y with
       | Some a, Some b => chr_compare_scalar a b
       | _, _ => UB "unreachable"
       end.

(** src/compare.h:174-211 *)
Definition lgl_compare_na_propagate (x y : Z) : Z :=
  if lgl_is_missing x || lgl_is_missing y then NA_INTEGER else int_compare_scalar x y.
Definition int_compare_na_propagate (x y : Z) : Z :=
  if int_is_missing x || int_is_missing y then NA_INTEGER else int_compare_scalar x y.
Definition dbl_compare_na_propagate (x y : dbl) : Z :=
  if dbl_is_missing x || dbl_is_missing y then NA_INTEGER else dbl_compare_scalar x y.
Definition chr_compare_na_propagate (x y : rstr) : res Z :=
  if chr_is_missing x || chr_is_missing y then Ok NA_INTEGER
  else if chr_equal_na_equal x y then Ok 0%Z
  else match x, y with
       | Some a, Some b => chr_compare_scalar a b
       | _, _ => UB "unreachable"
       end.
