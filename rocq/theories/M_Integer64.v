(** * Model: the integer64 proxy (src/type-integer64.c).

    An integer64 vector stores each value in the bits of a double; the model
    gives it as the signed value of the [long long] that the C code reads. *)
From Verif Require Import Base M_Double M_Scalar M_Object M_Proxy M_Cast.

Definition INT64_MIN : Z := (- 9223372036854775808)%Z.
Definition INT64_MAX : Z := 9223372036854775807%Z.
Definition is_int64 (x : Z) : Prop := (INT64_MIN <= x <= INT64_MAX)%Z.
(** src/type-integer64.c:4 [r_na_llong] *)
Definition NA_LLONG : Z := INT64_MIN.

(** C conversions: to [uint64_t], [uint32_t] (modulo) and back to [int64_t]
    (two's complement). *)
Definition to_u64 (x : Z) : Z := (x mod two64)%Z.
Definition to_u32 (x : Z) : Z := (x mod two32)%Z.
Definition to_i64 (x : Z) : Z := if (x <=? INT64_MAX)%Z then x else (x - two64)%Z.

(** C [(uint32_t) x] for a double: truncation, undefined for NaN and for
    values out of range. *)
Definition c_u32_of_dbl (x : dbl) : res Z :=
  if isnan x then UB "conversion of NaN to uint32_t"
  else
    let t := (dbl_value x ÷ dscale)%Z in
    if (0 <=? t)%Z && (t <? two32)%Z then Ok t
    else UB "conversion of an out-of-range double to uint32_t".

(** src/type-integer64.c:135-144 [int64_unpack]; [dbl_of_int] converts every
    [uint32_t] without rounding. *)
Definition int64_unpack (x : Z) : dbl * dbl :=
  let x_u64 := to_u64 (to_u64 x - to_u64 INT64_MIN) in
  let left_u32 := to_u32 (Z.shiftr x_u64 32) in
  let right_u32 := to_u32 x_u64 in
  (dbl_of_int left_u32, dbl_of_int right_u32).

(** src/type-integer64.c:146-156 [int64_pack] *)
Definition int64_pack (left right : dbl) : res Z :=
  let! left_u32 := c_u32_of_dbl left in
  let! right_u32 := c_u32_of_dbl right in
  let out_u64 := Z.lor (to_u64 (Z.shiftl left_u32 32)) right_u32 in
  Ok (to_i64 (to_u64 (out_u64 + to_u64 INT64_MIN))).

(** src/type-integer64.c:25-74 [vctrs_integer64_proxy], the two columns *)
Definition integer64_proxy (x : list Z) : res (list dbl * list dbl) :=
  let size := length x in
  for_ 0 size (fun i '((v_left, v_right) : list dbl * list dbl) =>
    let! elt := rd x i in
    if (elt =? NA_LLONG)%Z then
      let! v_left := wr v_left i NA_REAL in
      let! v_right := wr v_right i NA_REAL in
      Ok (v_left, v_right)
    else
      let '(l, r) := int64_unpack elt in
      let! v_left := wr v_left i l in
      let! v_right := wr v_right i r in
      Ok (v_left, v_right))
    (replicate size 0%Z, replicate size 0%Z).

(** src/type-integer64.c:76-112 [vctrs_integer64_restore] of a data frame
    with two double columns *)
Definition integer64_restore (left right : list dbl) : res (list Z) :=
  let size := length left in
  for_ 0 size (fun i (v_out : list Z) =>
    let! l := rd left i in
    let! r := rd right i in
    if isnan l then wr v_out i NA_LLONG
    else
      let! v := int64_pack l r in
      wr v_out i v)
    (replicate size 0%Z).
