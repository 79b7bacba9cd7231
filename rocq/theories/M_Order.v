(** * Model: ordering, part 1 (src/order.c, src/order-sortedness.c,
      src/order-groups.c): group tracking, sortedness detection, insertion,
      counting and radix ordering of integers and doubles.

    Conventions.
    - A pointer together with a size ([p_x], [size]) is modelled by the list of
      the [size] elements it points to.  An access outside that list is [UB],
      which is stricter than C, where the neighbouring elements of the same
      allocation could be reached.
    - Sizes, group sizes and counts ([r_ssize], never negative) are [nat];
      [vec_size()] returns an [R_len_t], so they are at most INT_MAX and storing
      them in an [int] does not change them.
    - [uint8_t], [uint32_t], [uint64_t] and [int] values are [Z].
    - The [int_] and [dbl_] versions of the insertion and radix ordering differ
      only in the key type and the number of passes (4 or 8).  The model has one
      version with the number of passes as parameter; both line ranges are
      cited. *)
From Verif Require Import Base M_Double M_Scalar.

(** ** Group information, src/order-groups.h, src/order-groups.c *)

(** src/order-groups.h:43-52 [struct group_info]; [length gi_data] is
    [data_size]. *)
Record group_info := GI { gi_data : list nat; gi_n_groups : nat; gi_max_group_size : nat }.
(** src/order-groups.h:93-101 [struct group_infos]; [g_current = false] is 0. *)
Record group_infos := Groups {
  g_info0 : group_info; g_info1 : group_info; g_max_data_size : nat;
  g_current : bool; g_force_groups : bool; g_ignore_groups : bool }.

(** src/order-groups.c:17-60 *)
Definition new_group_info : group_info := GI [] 0 0.
Definition new_group_infos (max_data_size : nat) (force ignore : bool) : group_infos :=
  Groups new_group_info new_group_info max_data_size false force ignore.

(** src/order-groups.h:125-128 *)
Definition groups_current (g : group_infos) : group_info :=
  if g_current g then g_info1 g else g_info0 g.
(** Writing through the pointer returned by [groups_current()]. *)
Definition groups_set_current (g : group_infos) (i : group_info) : group_infos :=
  if g_current g
  then Groups (g_info0 g) i (g_max_data_size g) (g_current g) (g_force_groups g) (g_ignore_groups g)
  else Groups i (g_info1 g) (g_max_data_size g) (g_current g) (g_force_groups g) (g_ignore_groups g).
Definition groups_set_ignore (g : group_infos) (b : bool) : group_infos :=
  Groups (g_info0 g) (g_info1 g) (g_max_data_size g) (g_current g) (g_force_groups g) b.

(** src/order-groups.h:24 *)
Definition GROUP_DATA_SIZE_DEFAULT : Z := 100000%Z.
(** src/order-groups.c:128-147 *)
Definition groups_realloc_size (data_size max_data_size : Z) : Z :=
  let new_data_size := if (data_size =? 0)%Z then GROUP_DATA_SIZE_DEFAULT else u64 (data_size * 2) in
  if (max_data_size <? new_data_size)%Z then max_data_size else new_data_size.
(** src/order-groups.c:107-124 [group_realloc] (the new cells are
    uninitialised in C, 0 here; they are written before being read). *)
Definition group_realloc (size : nat) (i : group_info) : group_info :=
  GI (resize size 0 (gi_data i)) (gi_n_groups i) (gi_max_group_size i).

(** src/order-groups.c:73-100 *)
Definition groups_size_push (size : nat) (g : group_infos) : res group_infos :=
  if size =? 0 then Err "Group `size` to push should never be zero."
  else
    let i := groups_current g in
    let i :=
      if length (gi_data i) =? gi_n_groups i
      then group_realloc
             (Z.to_nat (groups_realloc_size (Z.of_nat (length (gi_data i))) (Z.of_nat (g_max_data_size g)))) i
      else i in
    let! data := wr (gi_data i) (gi_n_groups i) size in
    let max := if gi_max_group_size i <? size then size else gi_max_group_size i in
    Ok (groups_set_current g (GI data (S (gi_n_groups i)) max)).

(** src/order-groups.h:139-146 *)
Definition groups_size_maybe_push (size : nat) (g : group_infos) : res group_infos :=
  if g_ignore_groups g then Ok g else groups_size_push size g.

(** src/order-groups.c:160-181 *)
Definition groups_swap (g : group_infos) : group_infos :=
  if g_ignore_groups g then g
  else
    let pre := groups_current g in
    let g := Groups (g_info0 g) (g_info1 g) (g_max_data_size g) (negb (g_current g))
                    (g_force_groups g) (g_ignore_groups g) in
    let post := groups_current g in
    let post := GI (gi_data post) 0 0 in
    let post := if length (gi_data post) <? length (gi_data pre)
                then group_realloc (length (gi_data pre)) post else post in
    groups_set_current g post.

(** ** The order vector, src/order.h:44-90 *)
Record order := Order { or_data : list Z; or_initialized : bool }.
Definition new_order (size : nat) : order := Order (replicate size 0%Z) false.

(** src/order-sortedness.c:494-499 [int_incr]; the same loop is in
    [init_order], src/order.h:81-83. *)
Definition int_incr (size : nat) (p_o : list Z) : res (list Z) :=
  for_ 0 size (fun i p_o => wr p_o i (Z.of_nat i + 1)%Z) p_o.
(** src/order.h:74-88 *)
Definition init_order (o : order) : res order :=
  if or_initialized o then Ok o
  else let! d := int_incr (length (or_data o)) (or_data o) in Ok (Order d true).

(** ** Sortedness, src/order-sortedness.c *)

(** src/order-sortedness.c:295-315 *)
Definition int_cmp (x y direction na_order : Z) : Z :=
  if (x =? NA_INTEGER)%Z then (if (y =? NA_INTEGER)%Z then 0 else na_order)%Z
  else if (y =? NA_INTEGER)%Z then (- na_order)%Z
  else ((b2i (y <? x) - b2i (x <? y)) * direction)%Z.

(** src/order-sortedness.c:185-189 *)
Definition dbl_cmp_numbers (x y : dbl) (direction : Z) : Z :=
  ((b2i (c_dgt x y) - b2i (c_dlt x y)) * direction)%Z.
(** src/order-sortedness.c:154-183.  The types are always [dbl_classify()] of
    the values (lines 54-55, 62-63, 79-80, 107-108, 127-128). *)
Definition dbl_cmp (x y : dbl) (direction na_order na_nan_order : Z) : Z :=
  match dbl_classify x, dbl_classify y with
  | DblNumber, DblNumber => dbl_cmp_numbers x y direction
  | DblNumber, DblMissing => - na_order
  | DblNumber, DblNan => - na_order
  | DblMissing, DblNumber => na_order
  | DblMissing, DblMissing => 0
  | DblMissing, DblNan => na_nan_order
  | DblNan, DblNumber => na_order
  | DblNan, DblMissing => - na_nan_order
  | DblNan, DblNan => 0
  end%Z.

(** src/order-sortedness.c:444-465 *)
Definition chr_cmp (x y : rstr) (direction na_order : Z) : Z :=
  if str_ptr_eqb x y then 0%Z
  else match x, y with
       | None, _ => na_order
       | _, None => (- na_order)%Z
       | Some a, Some b => (direction * c_strcmp a b)%Z
       end.

(** src/order-sortedness.h [enum vctrs_sortedness] *)
Inductive sortedness := IsSorted | IsReversed | IsUnsorted.

Section sortedness.
  Context {A : Type} (cmp : A -> A -> Z).

  (** src/order-sortedness.c:36-146 [dbl_sortedness], 196-294
      [int_sortedness], 331-437 [chr_sortedness]: the three functions are the
      same up to the element type and the comparison [cmp current previous]. *)
  Definition check_sortedness (p_x : list A) (g : group_infos) : res (sortedness * group_infos) :=
    let size := length p_x in
    if size =? 0 then Ok (IsSorted, g)
    else if size =? 1 then
      let! g := groups_size_maybe_push 1 g in Ok (IsSorted, g)
    else
      let! x0 := rd p_x 0 in
      (* Check for strictly opposite of expected order *)
      let! (previous, count) :=
        for_brk 1 (size - 1) (fun i '(previous, count) =>
          let! current := rd p_x i in
          if (0 <=? cmp current previous)%Z then Ok (Break (previous, count))
          else Ok (Next (current, S count))) (x0, 0) in
      if count =? size - 1 then
        let! g := for_ 0 size (fun _ g => groups_size_maybe_push 1 g) g in
        Ok (IsReversed, g)
      else if negb (count =? 0) then Ok (IsUnsorted, g)
      else
        let original_n_groups := gi_n_groups (groups_current g) in
        (* [unsorted] records the early return *)
        let! (unsorted, previous, group_size, g) :=
          for_brk 1 (size - 1) (fun i '(_, previous, group_size, g) =>
            let! current := rd p_x i in
            let c := cmp current previous in
            if (c <? 0)%Z then
              let gi := groups_current g in
              let g := groups_set_current g (GI (gi_data gi) original_n_groups (gi_max_group_size gi)) in
              Ok (Break (true, previous, group_size, g))
            else if (c =? 0)%Z then Ok (Next (false, current, S group_size, g))
            else
              let! g := groups_size_maybe_push group_size g in
              Ok (Next (false, current, 1, g))) (false, previous, 1, g) in
        if unsorted then Ok (IsUnsorted, g)
        else
          let! g := groups_size_maybe_push group_size g in
          Ok (IsSorted, g).
End sortedness.

Definition direction_of (decreasing : bool) : Z := if decreasing then (-1)%Z else 1%Z.
Definition na_order_of (na_last : bool) : Z := if na_last then 1%Z else (-1)%Z.

(** src/order-sortedness.c:196-292 *)
Definition int_sortedness (p_x : list Z) (decreasing na_last : bool) (g : group_infos) :=
  check_sortedness (fun x y => int_cmp x y (direction_of decreasing) (na_order_of na_last)) p_x g.
(** src/order-sortedness.c:36-146; [na_nan_order], lines 52-53 *)
Definition dbl_sortedness (p_x : list dbl) (decreasing na_last nan_distinct : bool) (g : group_infos) :=
  check_sortedness (fun x y =>
    dbl_cmp x y (direction_of decreasing) (na_order_of na_last)
            (if nan_distinct then na_order_of na_last else 0%Z)) p_x g.
(** src/order-sortedness.c:331-437 *)
Definition chr_sortedness (p_x : list rstr) (decreasing na_last : bool) (g : group_infos) :=
  check_sortedness (fun x y => chr_cmp x y (direction_of decreasing) (na_order_of na_last)) p_x g.

(** src/order-sortedness.c:502-517 *)
Definition ord_reverse (size : nat) (p_o : list Z) : res (list Z) :=
  let half := size / 2 in
  let! p_o := for_ 0 half (fun i p_o =>
    let swap := size - 1 - i in
    let! p_o := wr p_o i (Z.of_nat swap + 1)%Z in
    wr p_o swap (Z.of_nat i + 1)%Z) p_o in
  if negb (size mod 2 =? 0) then wr p_o half (Z.of_nat half + 1)%Z else Ok p_o.

(** src/order-sortedness.c:481-492 *)
Definition ord_resolve_sortedness (s : sortedness) (size : nat) (p_o : list Z) : res (list Z) :=
  match s with
  | IsSorted => int_incr size p_o
  | IsReversed => ord_reverse size p_o
  | IsUnsorted => Err "Unsorted case should be handled elsewhere."
  end.

(** src/order-sortedness.c:537-549 *)
Definition ord_reverse_chunk (size : nat) (p_o : list Z) : res (list Z) :=
  let half := size / 2 in
  for_ 0 half (fun i p_o =>
    let swap := size - 1 - i in
    let! temp := rd p_o i in
    let! v := rd p_o swap in
    let! p_o := wr p_o i v in
    wr p_o swap temp) p_o.

(** src/order-sortedness.c:521-531 *)
Definition ord_resolve_sortedness_chunk (s : sortedness) (size : nat) (p_o : list Z) : res (list Z) :=
  match s with
  | IsSorted => Ok p_o
  | IsReversed => ord_reverse_chunk size p_o
  | IsUnsorted => Err "Unsorted case should be handled elsewhere."
  end.

(** ** Key adjustment *)
Definition UINT32_MAX : Z := 4294967295%Z.
Definition UINT64_MAX : Z := 18446744073709551615%Z.
Definition int_in_range (z : Z) : bool := ((INT_MIN <=? z) && (z <=? INT_MAX))%Z.

(** src/order.c:1201-1203 *)
Definition int_map_to_uint32 (x : Z) : Z := Z.lxor (u32 x) 2147483648%Z.

(** src/order.c:1183-1194, the body of the loop of [int_adjust].  The
    multiplication and the addition are on [int]: signed overflow is UB. *)
Definition int_adjust_elt (decreasing na_last : bool) (elt : Z) : res Z :=
  let na_u32 := if na_last then UINT32_MAX else 0%Z in
  let na_shift := if na_last then (-1)%Z else 0%Z in
  if (elt =? NA_INTEGER)%Z then Ok na_u32
  else
    let prod := (elt * direction_of decreasing)%Z in
    if negb (int_in_range prod) then UB "signed overflow in int_adjust"
    else
      let sum := (prod + na_shift)%Z in
      if negb (int_in_range sum) then UB "signed overflow in int_adjust"
      else Ok (int_map_to_uint32 sum).
(** src/order.c:1171-1195 *)
Definition int_adjust (decreasing na_last : bool) (p_x : list Z) : res (list Z) :=
  for_ 0 (length p_x) (fun i p_x =>
    let! elt := rd p_x i in
    let! v := int_adjust_elt decreasing na_last elt in
    wr p_x i v) p_x.

(** src/order.c:2240-2250 *)
Definition dbl_flip_uint64 (x : Z) : Z :=
  let mask := if negb (Z.land x two63 =? 0)%Z then UINT64_MAX else two63 in
  Z.lxor x mask.
(** src/order.c:2225-2237.  [x == 0] holds for both zeros. *)
Definition dbl_map_to_uint64 (x : dbl) : Z :=
  let x := if c_deq x pos_zero then pos_zero else x in
  dbl_flip_uint64 x.
(** [elt * direction] with [direction] 1 or -1 (order.c:2175, 2199): for a
    number, IEEE multiplication by 1 is the identity and by -1 flips the sign
    bit.  (Only applied to non-NaN values.) *)
Definition dbl_mul_direction (decreasing : bool) (x : dbl) : dbl :=
  if decreasing then (if dbl_sign x then x - two63 else x + two63)%Z else x.
(** src/order.c:2157-2177, 2179-2212: bodies of the two loops of [dbl_adjust] *)
Definition dbl_adjust_elt (decreasing na_last nan_distinct : bool) (elt : dbl) : Z :=
  let na_u64 := if na_last then UINT64_MAX else 0%Z in
  let nan_u64 := if na_last then (UINT64_MAX - 1)%Z else 1%Z in
  if nan_distinct then
    match dbl_classify elt with
    | DblNumber => dbl_map_to_uint64 (dbl_mul_direction decreasing elt)
    | DblMissing => na_u64
    | DblNan => nan_u64
    end
  else if isnan elt then na_u64
  else dbl_map_to_uint64 (dbl_mul_direction decreasing elt).
(** src/order.c:2140-2153 *)
Definition dbl_adjust (decreasing na_last nan_distinct : bool) (p_x : list dbl) : res (list Z) :=
  for_ 0 (length p_x) (fun i p_x =>
    let! elt := rd p_x i in
    wr p_x i (dbl_adjust_elt decreasing na_last nan_distinct elt)) p_x.

(** ** Insertion ordering *)

(** src/order.c:1438-1453, 2289-2304: the [while (j >= 0)] loop; [k] is
    [j + 1].  Returns the final [j + 1]. *)
Fixpoint insertion_while (x_elt : Z) (k : nat) (p_x p_o : list Z) : res (nat * list Z * list Z) :=
  match k with
  | O => Ok (0, p_x, p_o)
  | S j =>
      let! x_cmp_elt := rd p_x j in
      if (x_cmp_elt <=? x_elt)%Z then Ok (k, p_x, p_o)
      else
        let! o_cmp_elt := rd p_o j in
        let! p_x := wr p_x (j + 1) x_cmp_elt in
        let! p_o := wr p_o (j + 1) o_cmp_elt in
        insertion_while x_elt j p_x p_o
  end.

(** src/order.c:1460-1483, 2311-2335: push the sizes of the runs of equal
    keys. *)
Definition push_runs (p_x : list Z) (g : group_infos) : res group_infos :=
  let! previous := rd p_x 0 in
  let! (previous, group_size, g) :=
    for_ 1 (length p_x - 1) (fun i '(previous, group_size, g) =>
      let! current := rd p_x i in
      if (current =? previous)%Z then Ok (previous, S group_size, g)
      else
        let! g := groups_size_maybe_push group_size g in
        Ok (current, 1, g)) (previous, 1, g) in
  groups_size_maybe_push group_size g.

(** src/order.c:1422-1484 [int_order_insertion], 2273-2336
    [dbl_order_insertion] *)
Definition order_insertion (p_x p_o : list Z) (g : group_infos)
    : res (list Z * list Z * group_infos) :=
  let size := length p_x in
  if size =? 0 then Ok (p_x, p_o, g)
  else
    let! (p_x, p_o) :=
      for_ 1 (size - 1) (fun i '(p_x, p_o) =>
        let! x_elt := rd p_x i in
        let! o_elt := rd p_o i in
        let! (j1, p_x, p_o) := insertion_while x_elt i p_x p_o in
        let! p_x := wr p_x j1 x_elt in
        let! p_o := wr p_o j1 o_elt in
        Ok (p_x, p_o)) (p_x, p_o) in
    let! g := push_runs p_x g in
    Ok (p_x, p_o, g).

(** ** Counting ordering *)
Definition INT_ORDER_COUNTING_RANGE_BOUNDARY : Z := 100000%Z.
Definition ORDER_INSERTION_BOUNDARY : nat := 128.

(** src/order.c:1222-1283; returns [(x_min, range)]. *)
Definition int_compute_range (p_x : list Z) : res (Z * Z) :=
  let size := length p_x in
  (* Find first non-NA value; [i] is returned as the third component *)
  let! (x_min, x_max, i) :=
    for_brk 0 size (fun i _ =>
      let! elt := rd p_x i in
      if (elt =? NA_INTEGER)%Z then Ok (Next (NA_INTEGER, NA_INTEGER, S i))
      else Ok (Break (elt, elt, S i))) (NA_INTEGER, NA_INTEGER, 0) in
  if (x_min =? NA_INTEGER)%Z then Ok (x_min, UINT32_MAX)
  else
    let! (x_min, x_max) :=
      for_ i (size - i) (fun j '(x_min, x_max) =>
        let! elt := rd p_x j in
        if (elt =? NA_INTEGER)%Z then Ok (x_min, x_max)
        else if (x_max <? elt)%Z then Ok (x_min, elt)
        else if (elt <? x_min)%Z then Ok (elt, x_max)
        else Ok (x_min, x_max)) (x_min, x_max) in
    Ok (x_min, u32 (x_max - x_min + 1)).

(** [const uint32_t bucket = elt - x_min] (order.c:1330, 1382, 1392) *)
Definition bucket_of (x_min na_bucket elt : Z) : res Z :=
  if (elt =? NA_INTEGER)%Z then Ok na_bucket
  else if negb (int_in_range (elt - x_min)) then UB "signed overflow in int_order_counting"
  else Ok (u32 (elt - x_min)).

(** [++p_counts[bucket]] *)
Definition bump (p_counts : list nat) (bucket : Z) : res (list nat) :=
  let! c := rdZ p_counts bucket in
  wrZ p_counts bucket (S c).

(** src/order.c:1301-1403.  [p_counts] is the static array (line 1314); its
    final content is returned. *)
Definition int_order_counting (p_x : list Z) (x_min range : Z) (initialized decreasing na_last : bool)
    (p_o p_o_aux : list Z) (p_counts : list nat) (g : group_infos)
    : res (list Z * list Z * list nat * group_infos) :=
  let size := length p_x in
  let na_bucket := range in
  if (INT_ORDER_COUNTING_RANGE_BOUNDARY <? range)%Z
  then Err "`range > INT_ORDER_COUNTING_RANGE_BOUNDARY`."
  else
    (* Histogram pass *)
    let! (p_counts, na_count) :=
      for_ 0 size (fun i '(p_counts, na_count) =>
        let! elt := rd p_x i in
        if (elt =? NA_INTEGER)%Z then Ok (p_counts, S na_count)
        else
          let! bucket := bucket_of x_min na_bucket elt in
          let! p_counts := bump p_counts bucket in
          Ok (p_counts, na_count)) (p_counts, 0) in
    let! p_counts := wrZ p_counts na_bucket na_count in
    let j := if decreasing then (range - 1)%Z else 0%Z in
    (* NA counts to the front *)
    let! (p_counts, cumulative, g) :=
      if negb na_last && negb (na_count =? 0) then
        let! p_counts := wrZ p_counts na_bucket 0 in
        let! g := groups_size_maybe_push na_count g in
        Ok (p_counts, na_count, g)
      else Ok (p_counts, 0, g) in
    (* Accumulate counts, skip zeros *)
    let! (p_counts, cumulative, j, g) :=
      for_ 0 (Z.to_nat range) (fun _ '(p_counts, cumulative, j, g) =>
        let! count := rdZ p_counts j in
        if count =? 0 then Ok (p_counts, cumulative, (j + direction_of decreasing)%Z, g)
        else
          let! p_counts := wrZ p_counts j cumulative in
          let! g := groups_size_maybe_push count g in
          Ok (p_counts, cumulative + count, (j + direction_of decreasing)%Z, g))
        (p_counts, cumulative, j, g) in
    (* NA counts to the back *)
    let! (p_counts, g) :=
      if na_last && negb (na_count =? 0) then
        let! p_counts := wrZ p_counts na_bucket cumulative in
        let! g := groups_size_maybe_push na_count g in
        Ok (p_counts, g)
      else Ok (p_counts, g) in
    let! (p_o, p_o_aux, p_counts) :=
      if initialized then
        let! (p_o_aux, p_counts) :=
          for_ 0 size (fun i '(p_o_aux, p_counts) =>
            let! elt := rd p_x i in
            let! bucket := bucket_of x_min na_bucket elt in
            let! loc := rdZ p_counts bucket in
            let! p_counts := wrZ p_counts bucket (S loc) in
            let! v := rd p_o i in
            let! p_o_aux := wr p_o_aux loc v in
            Ok (p_o_aux, p_counts)) (p_o_aux, p_counts) in
        (* memcpy(p_o, p_o_aux, size) *)
        Ok (take size p_o_aux ++ drop size p_o, p_o_aux, p_counts)
      else
        let! (p_o, p_counts) :=
          for_ 0 size (fun i '(p_o, p_counts) =>
            let! elt := rd p_x i in
            let! bucket := bucket_of x_min na_bucket elt in
            let! loc := rdZ p_counts bucket in
            let! p_counts := wrZ p_counts bucket (S loc) in
            let! p_o := wr p_o loc (Z.of_nat i + 1)%Z in
            Ok (p_o, p_counts)) (p_o, p_counts) in
        Ok (p_o, p_o_aux, p_counts) in
    (* memset(p_counts, 0, range + 1) *)
    let n := Z.to_nat (range + 1) in
    Ok (p_o, p_o_aux, replicate n 0 ++ drop n p_counts, g).

(** ** Radix ordering *)
Definition UINT8_MAX_SIZE : nat := 256.
Definition INT_MAX_RADIX_PASS : nat := 4.
Definition DBL_MAX_RADIX_PASS : nat := 8.

(** src/order.c:1768-1771 [int_extract_uint32_byte], 2630-2633
    [dbl_extract_uint64_byte] *)
Definition extract_byte (x : Z) (shift : nat) : Z := Z.land (Z.shiftr x (Z.of_nat shift)) 255%Z.
(** src/order.c:175 [PASS_TO_RADIX], times 8 *)
Definition pass_shift (max_pass pass : nat) : nat := (max_pass - 1 - pass) * 8.

Section skip_loop.
  Context (max_pass : nat) (elt : Z) (p_bytes : list Z).
  (** src/order.c:1735-1745, 2597-2607: inner loop of [*_compute_skips].  The
      variable [shift] starts at [pass_shift 0] and decreases by 8. *)
  Definition skip_pass (p_skips : list bool) : res (list bool * nat) :=
    for_ 0 max_pass (fun pass '((p_skips, n_skips) : list bool * nat) =>
      let! skip := rd p_skips pass in
      if skip then
        let! b := rd p_bytes pass in
        let! p_skips := wr p_skips pass (b =? extract_byte elt (pass_shift max_pass pass))%Z in
        Ok (p_skips, n_skips)
      else Ok (p_skips, n_skips - 1)) (p_skips, max_pass).
End skip_loop.

(** [while (pass < MAX && p_skips[pass]) ++pass;] with at most [fuel] steps
    (order.c:1756-1758, 1574-1577, 2618-2620, 2425-2428).  [fuel >= MAX - pass]
    always suffices. *)
Fixpoint skip_while (fuel max_pass : nat) (p_skips : list bool) (pass : nat) : res nat :=
  if pass <? max_pass then
    let! b := rd p_skips pass in
    if b then match fuel with
              | O => UB "out of fuel"
              | S f => skip_while f max_pass p_skips (S pass)
              end
    else Ok pass
  else Ok pass.

(** src/order.c:1712-1761 [int_compute_skips], 2574-2623
    [dbl_compute_skips]; returns [(pass, p_skips)]. *)
Definition compute_skips (max_pass : nat) (p_x : list Z) : res (nat * list bool) :=
  let! elt0 := rd p_x 0 in
  let p_bytes := map (fun pass => extract_byte elt0 (pass_shift max_pass pass)) (seq 0 max_pass) in
  let! p_skips :=
    for_brk 1 (length p_x - 1) (fun i p_skips =>
      let! elt := rd p_x i in
      let! (p_skips, n_skips) := skip_pass max_pass elt p_bytes p_skips in
      if n_skips =? 0 then Ok (Break p_skips) else Ok (Next p_skips))
      (replicate max_pass true) in
  let! pass := skip_while max_pass max_pass p_skips 0 in
  Ok (pass, p_skips).

(** The arrays used as working memory: [p_x_aux], [p_o_aux], [p_bytes] and
    [p_counts]. *)
Record radix_mem := RMem {
  rm_x_aux : list Z; rm_o_aux : list Z; rm_bytes : list Z; rm_counts : list nat }.

(** [p + pos] with [n] elements, and writing those elements back *)
Definition seg {A} (l : list A) (pos n : nat) : list A := take n (drop pos l).
Definition put_seg {A} (l : list A) (pos : nat) (s : list A) : list A :=
  take pos l ++ s ++ drop (pos + length s) l.

Section radix.
  Context (max_pass : nat) (p_skips : list bool).

  (** src/order.c:1584-1592, 2437-2444: the histogram; [off] is the offset of
      [p_counts] in the whole array.  Returns the last byte too. *)
  Definition radix_histogram (shift : nat) (p_x : list Z) (off : nat) (mem : radix_mem)
      : res (Z * radix_mem) :=
    for_ 0 (length p_x) (fun i '(_, mem) =>
      let! x_elt := rd p_x i in
      let byte := extract_byte x_elt shift in
      let! bytes := wr (rm_bytes mem) i byte in
      let! c := rdZ (rm_counts mem) (Z.of_nat off + byte)%Z in
      let! counts := wrZ (rm_counts mem) (Z.of_nat off + byte)%Z (S c) in
      Ok (byte, RMem (rm_x_aux mem) (rm_o_aux mem) bytes counts)) (0%Z, mem).

  (** src/order.c:1628-1640, 2476-2488: accumulate *)
  Definition radix_accumulate (off : nat) (counts : list nat) : res (list nat * nat) :=
    for_ 0 UINT8_MAX_SIZE (fun i '(counts, cumulative) =>
      let! count := rd counts (off + i) in
      if count =? 0 then Ok (counts, cumulative)
      else
        let! counts := wr counts (off + i) cumulative in
        Ok (counts, cumulative + count)) (counts, 0).

  (** src/order.c:1643-1648, 2491-2496: place into the auxiliary arrays *)
  Definition radix_place (p_x p_o : list Z) (off : nat) (mem : radix_mem) : res radix_mem :=
    for_ 0 (length p_x) (fun i mem =>
      let! byte := rd (rm_bytes mem) i in
      let! loc := rdZ (rm_counts mem) (Z.of_nat off + byte)%Z in
      let! counts := wrZ (rm_counts mem) (Z.of_nat off + byte)%Z (S loc) in
      let! o := rd p_o i in
      let! o_aux := wr (rm_o_aux mem) loc o in
      let! x := rd p_x i in
      let! x_aux := wr (rm_x_aux mem) loc x in
      Ok (RMem x_aux o_aux (rm_bytes mem) counts)) mem.

  (** src/order.c:1552-1703 [int_order_radix_recurse], 2406-2555
      [dbl_order_radix_recurse].  [fuel] bounds the recursion depth; the pass
      increases at each call, so [max_pass] always suffices. *)
  Fixpoint order_radix_recurse (fuel : nat) (pass : nat) (p_x p_o : list Z) (off : nat)
      (mem : radix_mem) (g : group_infos) {struct fuel}
      : res (list Z * list Z * radix_mem * group_infos) :=
    match fuel with
    | O => UB "out of fuel"
    | S fuel =>
        let size := length p_x in
        if size <=? ORDER_INSERTION_BOUNDARY then
          let! (p_x, p_o, g) := order_insertion p_x p_o g in
          Ok (p_x, p_o, mem, g)
        else
          let! next_pass := skip_while max_pass max_pass p_skips (S pass) in
          let off_next := off + UINT8_MAX_SIZE * (next_pass - pass) in
          let shift := pass_shift max_pass pass in
          let! (byte, mem) := radix_histogram shift p_x off mem in
          let! cbyte := rdZ (rm_counts mem) (Z.of_nat off + byte)%Z in
          if cbyte =? size then
            let! counts := wrZ (rm_counts mem) (Z.of_nat off + byte)%Z 0 in
            let mem := RMem (rm_x_aux mem) (rm_o_aux mem) (rm_bytes mem) counts in
            if next_pass =? max_pass then
              let! g := groups_size_maybe_push size g in
              Ok (p_x, p_o, mem, g)
            else order_radix_recurse fuel next_pass p_x p_o off_next mem g
          else
            let! (counts, _) := radix_accumulate off (rm_counts mem) in
            let mem := RMem (rm_x_aux mem) (rm_o_aux mem) (rm_bytes mem) counts in
            let! mem := radix_place p_x p_o off mem in
            let p_o := take size (rm_o_aux mem) in
            let p_x := take size (rm_x_aux mem) in
            (* Recurse on subgroups as required *)
            let! (p_x, p_o, mem, g, _) :=
              for_brk 0 UINT8_MAX_SIZE (fun i '(p_x, p_o, mem, g, last_cumulative_count) =>
                if size <=? last_cumulative_count
                then Ok (Break (p_x, p_o, mem, g, last_cumulative_count))
                else
                  let! cumulative_count := rd (rm_counts mem) (off + i) in
                  if cumulative_count =? 0
                  then Ok (Next (p_x, p_o, mem, g, last_cumulative_count))
                  else
                    let! counts := wr (rm_counts mem) (off + i) 0 in
                    let mem := RMem (rm_x_aux mem) (rm_o_aux mem) (rm_bytes mem) counts in
                    let group_size := cumulative_count - last_cumulative_count in
                    let pos := last_cumulative_count in
                    if group_size =? 1 then
                      let! g := groups_size_maybe_push 1 g in
                      Ok (Next (p_x, p_o, mem, g, cumulative_count))
                    else if next_pass =? max_pass then
                      let! g := groups_size_maybe_push group_size g in
                      Ok (Next (p_x, p_o, mem, g, cumulative_count))
                    else
                      let! (sub_x, sub_o, mem, g) :=
                        order_radix_recurse fuel next_pass (seg p_x pos group_size)
                          (seg p_o pos group_size) off_next mem g in
                      Ok (Next (put_seg p_x pos sub_x, put_seg p_o pos sub_o, mem, g, cumulative_count)))
                (p_x, p_o, mem, g, 0) in
            Ok (p_x, p_o, mem, g)
    end.
End radix.

(** src/order.c:1510-1541 [int_order_radix], 2361-2392 [dbl_order_radix] *)
Definition order_radix (max_pass : nat) (p_x p_o : list Z) (mem : radix_mem) (g : group_infos)
    : res (list Z * list Z * radix_mem * group_infos) :=
  let! (pass, p_skips) := compute_skips max_pass p_x in
  if pass =? max_pass then
    let! g := groups_size_maybe_push (length p_x) g in
    Ok (p_x, p_o, mem, g)
  else order_radix_recurse max_pass p_skips max_pass pass p_x p_o 0 mem g.

(** ** Entry points for integers, logicals and doubles *)

(** Working memory that lives across calls: the lazily allocated arrays
    (order.c:392-412) and the static counts of [int_order_counting]. *)
Record work := Work { w_radix : radix_mem; w_static : list nat }.
(** [memset(p_counts, 0, ...)] *)
Definition zero_counts (m : radix_mem) : radix_mem :=
  RMem (rm_x_aux m) (rm_o_aux m) (rm_bytes m) (replicate (length (rm_counts m)) 0).
Definition with_radix (w : work) (m : radix_mem) : work := Work m (w_static w).
Definition with_counting (w : work) (o_aux : list Z) (s : list nat) : work :=
  Work (RMem (rm_x_aux (w_radix w)) o_aux (rm_bytes (w_radix w)) (rm_counts (w_radix w))) s.

(** src/order.c:970-1037 [int_order_chunk_impl] *)
Definition int_order_chunk_impl (decreasing na_last : bool) (p_x p_o : list Z) (w : work) (g : group_infos)
    : res (list Z * work * group_infos) :=
  if length p_x <=? ORDER_INSERTION_BOUNDARY then
    let! p_x := int_adjust decreasing na_last p_x in
    let! (_, p_o, g) := order_insertion p_x p_o g in
    Ok (p_o, w, g)
  else
    let! (x_min, range) := int_compute_range p_x in
    if (range <? INT_ORDER_COUNTING_RANGE_BOUNDARY)%Z then
      let! (p_o, o_aux, st, g) :=
        int_order_counting p_x x_min range true decreasing na_last p_o
          (rm_o_aux (w_radix w)) (w_static w) g in
      Ok (p_o, with_counting w o_aux st, g)
    else
      let mem := zero_counts (w_radix w) in
      let! p_x := int_adjust decreasing na_last p_x in
      let! (_, p_o, mem, g) := order_radix INT_MAX_RADIX_PASS p_x p_o mem g in
      Ok (p_o, with_radix w mem, g).

(** src/order.c:831-869 [int_order_chunk]; also [lgl_order_chunk],
    1779-1801 *)
Definition int_order_chunk (decreasing na_last : bool) (p_x p_o : list Z) (w : work) (g : group_infos)
    : res (list Z * work * group_infos) :=
  let! (s, g) := int_sortedness p_x decreasing na_last g in
  match s with
  | IsUnsorted => int_order_chunk_impl decreasing na_last p_x p_o w g
  | _ =>
      let! p_o := ord_resolve_sortedness_chunk s (length p_x) p_o in
      Ok (p_o, w, g)
  end.

(** src/order.c:1048-1144 [int_order_impl].  [copy] only tells where the
    values of [p_x] are stored. *)
Definition int_order_impl (p_x : list Z) (decreasing na_last : bool) (o : order) (w : work) (g : group_infos)
    : res (order * work * group_infos) :=
  if length p_x <=? ORDER_INSERTION_BOUNDARY then
    let! o := init_order o in
    let! p_x := int_adjust decreasing na_last p_x in
    let! (_, p_o, g) := order_insertion p_x (or_data o) g in
    Ok (Order p_o (or_initialized o), w, g)
  else
    let! (x_min, range) := int_compute_range p_x in
    if (range <? INT_ORDER_COUNTING_RANGE_BOUNDARY)%Z then
      let! (p_o, o_aux, st, g) :=
        int_order_counting p_x x_min range false decreasing na_last (or_data o)
          (rm_o_aux (w_radix w)) (w_static w) g in
      Ok (Order p_o true, with_counting w o_aux st, g)
    else
      let! o := init_order o in
      let mem := zero_counts (w_radix w) in
      let! p_x := int_adjust decreasing na_last p_x in
      let! (_, p_o, mem, g) := order_radix INT_MAX_RADIX_PASS p_x (or_data o) mem g in
      Ok (Order p_o (or_initialized o), with_radix w mem, g).

(** src/order.c:884-928 [int_order]; also [lgl_order], 1804-1828 *)
Definition int_order (p_x : list Z) (decreasing na_last : bool) (o : order) (w : work) (g : group_infos)
    : res (order * work * group_infos) :=
  let! (s, g) := int_sortedness p_x decreasing na_last g in
  match s with
  | IsUnsorted => int_order_impl p_x decreasing na_last o w g
  | _ =>
      let! p_o := ord_resolve_sortedness s (length p_x) (or_data o) in
      Ok (Order p_o true, w, g)
  end.

(** The part shared by [dbl_order_chunk_impl] (1994-2020) and
    [dbl_order_impl] (2071-2098) after the sortedness check. *)
Definition dbl_order_body (decreasing na_last nan_distinct : bool) (p_x p_o : list Z) (w : work)
    (g : group_infos) : res (list Z * work * group_infos) :=
  let! p_x := dbl_adjust decreasing na_last nan_distinct p_x in
  if length p_x <=? ORDER_INSERTION_BOUNDARY then
    let! (_, p_o, g) := order_insertion p_x p_o g in
    Ok (p_o, w, g)
  else
    let mem := zero_counts (w_radix w) in
    let! (_, p_o, mem, g) := order_radix DBL_MAX_RADIX_PASS p_x p_o mem g in
    Ok (p_o, with_radix w mem, g).

(** src/order.c:1966-2018 [dbl_order_chunk_impl]; [dbl_order_chunk] (1863-1889)
    only passes its arguments on. *)
Definition dbl_order_chunk_impl (decreasing na_last nan_distinct : bool) (p_x : list dbl) (p_o : list Z)
    (w : work) (g : group_infos) : res (list Z * work * group_infos) :=
  let! (s, g) := dbl_sortedness p_x decreasing na_last nan_distinct g in
  match s with
  | IsUnsorted => dbl_order_body decreasing na_last nan_distinct p_x p_o w g
  | _ =>
      let! p_o := ord_resolve_sortedness_chunk s (length p_x) p_o in
      Ok (p_o, w, g)
  end.

(** src/order.c:2032-2098 [dbl_order_impl]; [dbl_order] (1907-1935) only
    passes its arguments on. *)
Definition dbl_order_impl (p_x : list dbl) (decreasing na_last nan_distinct : bool) (o : order) (w : work)
    (g : group_infos) : res (order * work * group_infos) :=
  let! (s, g) := dbl_sortedness p_x decreasing na_last nan_distinct g in
  match s with
  | IsUnsorted =>
      let! o := init_order o in
      let! (p_o, w, g) := dbl_order_body decreasing na_last nan_distinct p_x (or_data o) w g in
      Ok (Order p_o (or_initialized o), w, g)
  | _ =>
      let! p_o := ord_resolve_sortedness s (length p_x) (or_data o) in
      Ok (Order p_o true, w, g)
  end.
