(** * Model: intervals (src/interval.c) *)
From Verif Require Import Base M_Double M_Scalar M_Object M_Proxy M_OrderChr M_OrderDf M_Rank.

(** [start] and [end] are given by their comparison proxies after the cast to
    their common type (lines 75-110, 317-352, 726-761 are not modelled). *)
Definition ocols (p : oproxy) : list ocol := match p with OVec c => [c] | ODf cols _ => cols end.
Definition orows (p : oproxy) : list (list elt) := proxy_rows (oproxy_proxy p).

(** [poly_p_compare_na_equal], [poly_p_is_missing] (src/poly-op.c) at locations
    counted from 0 *)
Definition fn_compare (p : oproxy) (i : Z) (q : oproxy) (j : Z) : res Z :=
  let! a := rdZ (orows p) i in
  let! b := rdZ (orows q) j in
  row_compare a b.
Definition fn_is_missing (p : oproxy) (i : Z) : res bool :=
  let! a := rdZ (orows p) i in
  Ok (row_is_missing a).

(** src/interval.c:878-909 [interval_order] *)
Definition interval_order (fuel : nat) (s e : oproxy) (decreasing na_largest : list bool) (size : nat) (tls : truelengths)
    : res (list Z) :=
  vec_order fuel (XDf [length (ocols s); length (ocols e)]) (ODf (ocols s ++ ocols e) size) decreasing na_largest false tls.

(** [memcpy] of part of the order *)
Definition copy_order (order : list Z) (from size : Z) : res (list Z) :=
  if (from <? 0)%Z || (size <? 0)%Z || (Z.of_nat (length order) <? from + size)%Z then UB "out-of-bounds read"
  else Ok (take (Z.to_nat size) (drop (Z.to_nat from) order)).

(** The variables of the loops.  The dynamic arrays of src/rlang/dyn-array.c
    are lists here, a push appends. *)
Record gstate := GState {
  g_order_start : Z; g_order_end : Z; g_start : Z; g_end : Z;
  g_loc_start : list Z; g_loc_end : list Z; g_loc : list (list Z) }.

(** src/interval.c:203-215, 229-241, 250-262: push a group *)
Definition push_group (locations : bool) (order : list Z) (order_start order_end gs ge : Z) (st : gstate) : res gstate :=
  let! loc := if locations then
      let! l := copy_order order order_start (order_end - order_start + 1) in Ok (g_loc st ++ [l])
    else Ok (g_loc st) in
  Ok (GState (g_order_start st) (g_order_end st) (g_start st) (g_end st)
        (g_loc_start st ++ [(gs + 1)%Z]) (g_loc_end st ++ [(ge + 1)%Z]) loc).

(** src/interval.c:67-299 [vec_interval_group_info]; returns [loc_start],
    [loc_end] and [loc]. [drop] is [missing == VCTRS_INTERVAL_MISSING_drop]. *)
Definition vec_interval_group_info (fuel : nat) (s e : oproxy) (abutting drop locations : bool) (tls : truelengths)
    : res (list Z * list Z * list (list Z)) :=
  let size := oproxy_size s in
  if negb (size =? oproxy_size e) then Err "`start` and `end` must have the same size."
  else
    let! order := interval_order fuel s e [false] [false] size tls in
    (* lines 169-177 *)
    let! (i, missing_end) := for_brk 0 size (fun k '((i, missing_end) : nat * Z) =>
      let! o := rd order k in
      let! m := fn_is_missing s (o - 1) in
      if negb m then Ok (Break (i, missing_end)) else Ok (Next (S i, Z.of_nat k))) (0, (-1)%Z) in
    let st := GState 0 (-1) 0 (-1) [] [] [] in
    (* lines 179-193 *)
    let! (i, st) :=
      if i <? size then
        let! o := rd order i in
        Ok (S i, GState (Z.of_nat i) (Z.of_nat i) (o - 1) (o - 1) [] [] [])
      else Ok (i, st) in
    let merge_limit := if abutting then (-1)%Z else 0%Z in
    (* lines 197-225 *)
    let! st := for_ i (size - i) (fun i (st : gstate) =>
      let! o := rd order i in
      let loc := (o - 1)%Z in
      let! c := fn_compare e (g_end st) s loc in
      let! st :=
        if (c <=? merge_limit)%Z then
          let! st := push_group locations order (g_order_start st) (g_order_end st) (g_start st) (g_end st) st in
          Ok (GState (g_order_end st + 1) (g_order_end st) loc loc (g_loc_start st) (g_loc_end st) (g_loc st))
        else
          let! c := fn_compare e (g_end st) e loc in
          if (c =? -1)%Z then
            Ok (GState (g_order_start st) (g_order_end st) (g_start st) loc (g_loc_start st) (g_loc_end st) (g_loc st))
          else Ok st in
      Ok (GState (g_order_start st) (Z.of_nat i) (g_start st) (g_end st) (g_loc_start st) (g_loc_end st) (g_loc st))) st in
    (* lines 227-242 *)
    let! st := if (g_order_start st <=? g_order_end st)%Z
      then push_group locations order (g_order_start st) (g_order_end st) (g_start st) (g_end st) st else Ok st in
    (* lines 244-263 *)
    let! st :=
      if negb drop && (0 <=? missing_end)%Z then
        let! a := rdZ order 0 in
        let! b := rdZ order missing_end in
        push_group locations order 0 missing_end (a - 1) (b - 1) st
      else Ok st in
    Ok (g_loc_start st, g_loc_end st, g_loc st).

(** ** Containers *)
(** src/interval.c:722-867 [vec_interval_locate_containers] *)
Definition vec_interval_locate_containers (fuel : nat) (s e : oproxy) (tls : truelengths) : res (list Z) :=
  let size := oproxy_size s in
  if negb (size =? oproxy_size e) then Err "`start` and `end` must have the same size."
  else
    let! order := interval_order fuel s e [false; true] [false; true] size tls in
    let! (i, any_missing) := for_brk 0 size (fun k '((i, any_missing) : nat * bool) =>
      let! o := rd order k in
      let! m := fn_is_missing s (o - 1) in
      if negb m then Ok (Break (i, any_missing)) else Ok (Next (S i, true))) (0, false) in
    let! (i, container, out) :=
      if i <? size then
        let! o := rd order i in
        Ok (S i, (o - 1)%Z, [o])
      else Ok (i, (-1)%Z, []) in
    let! (_, out) := for_ i (size - i) (fun i '((container, out) : Z * list Z) =>
      let! o := rd order i in
      let loc := (o - 1)%Z in
      let! c1 := fn_compare s container s loc in
      let! inside :=
        if negb (c1 =? 1)%Z then
          let! c2 := fn_compare e container e loc in Ok (negb (c2 =? -1)%Z)
        else Ok false in
      if (inside : bool) then Ok (container, out) else Ok (loc, out ++ [(loc + 1)%Z])) (container, out) in
    if (any_missing : bool) then
      let! o := rd order 0 in Ok (out ++ [o])
    else Ok out.

(** ** Complement *)
(** [vec_slice_unsafe] of the rows at locations counted from 1 *)
Definition slice_rows (rows : list (list elt)) (locs : list Z) : res (list (list elt)) :=
  foldr (fun l acc => let! v := rdZ rows (l - 1) in let! acc := acc in Ok (v :: acc)) (Ok []) locs.

(** src/interval.c:372-399, 401-428: the size and completeness of a bound *)
Definition check_bound (b : option oproxy) : res unit :=
  match b with
  | None => Ok tt
  | Some b =>
      if negb (oproxy_size b =? 1) then Err "must be size 1."
      else
        let! complete := vec_detect_complete (oproxy_proxy b) in
        let! c := rd complete 0 in
        if (c =? 0)%Z then Err "can't contain missing values." else Ok tt
  end.
Definition cmp_bound (b : option oproxy) (p : oproxy) (j : Z) : res Z :=
  match b with Some b => fn_compare b 0 p j | None => UB "null pointer" end.

(** src/interval.c:491-510 *)
Definition lower_loop (s e : oproxy) (mstart mend : list Z) (lower : option oproxy) (size : nat) : res (nat * Z * Z) :=
  for_brk 0 size (fun k '((i, after_start, before_end) : nat * Z * Z) =>
    let! ls := rd mstart k in
    let! le := rd mend k in
    let! c := cmp_bound lower e (le - 1) in
    if (c =? 1)%Z then Ok (Next (S i, (after_start + 1)%Z, (before_end + 1)%Z))
    else
      let! c := cmp_bound lower s (ls - 1) in
      if (0 <=? c)%Z then Ok (Next (S i, (after_start + 1)%Z, before_end))
      else Ok (Break (i, after_start, before_end))) (0, (-1)%Z, 0%Z).

(** src/interval.c:512-531; [k] counts the iterations, [size] goes down *)
Definition upper_loop (s e : oproxy) (mstart mend : list Z) (upper : option oproxy) (size : nat) : res (nat * Z * Z) :=
  for_brk 0 size (fun _ '((size, after_start, before_end) : nat * Z * Z) =>
    let! ls := rdZ mstart (Z.of_nat size - 1) in
    let! le := rdZ mend (Z.of_nat size - 1) in
    let! c := cmp_bound upper s (ls - 1) in
    if (c =? -1)%Z then Ok (Next (size - 1, (after_start - 1)%Z, (before_end - 1)%Z))
    else
      let! c := cmp_bound upper e (le - 1) in
      if (c <=? 0)%Z then Ok (Next (size - 1, after_start, (before_end - 1)%Z))
      else Ok (Break (size, after_start, before_end))) (size, (Z.of_nat size - 1)%Z, Z.of_nat size).

(** an array and the number of its used elements *)
Definition put (a : list Z * nat) (v : Z) : res (list Z * nat) := let! l := wr a.1 a.2 v in Ok (l, S a.2).

(** src/interval.c:535-556: the gap after [lower] *)
Definition lower_gap (mstart mend : list Z) (after before : Z) (ls le : list Z * nat) : res ((list Z * nat) * (list Z * nat) * bool) :=
  let! (gap_start, append_lower) :=
    if (before =? after)%Z then
      let! v := rdZ mend before in Ok ((v - 1)%Z, false)
    else Ok ((-1)%Z, true) in
  let! v := rdZ mstart (after + 1) in
  let gap_end := (v - 1)%Z in
  let! ls := if (append_lower : bool) then Ok ls else put ls (gap_start + 1) in
  let! le := put le (gap_end + 1) in
  Ok (ls, le, append_lower).
(** src/interval.c:558-580: the gaps between the intervals *)
Definition inner_gaps (mstart mend : list Z) (i size : nat) (ls le : list Z * nat) : res ((list Z * nat) * (list Z * nat)) :=
  let! (i, previous_end) :=
    if i <? size then let! v := rd mend i in Ok (S i, (v - 1)%Z) else Ok (i, (-1)%Z) in
  let! (ls, le, _) := for_ i (size - i) (fun i '((ls, le, previous_end) : (list Z * nat) * (list Z * nat) * Z) =>
    let! elt_start := rd mstart i in
    let! elt_end := rd mend i in
    let! ls := put ls (previous_end + 1) in
    let! le := put le (elt_start - 1 + 1) in
    Ok (ls, le, (elt_end - 1)%Z)) (ls, le, previous_end) in
  Ok (ls, le).
(** src/interval.c:582-603: the gap before [upper] *)
Definition upper_gap (mstart mend : list Z) (after before : Z) (ls le : list Z * nat) : res ((list Z * nat) * (list Z * nat) * bool) :=
  let! v := rdZ mend (before - 1) in
  let gap_start := (v - 1)%Z in
  let! (gap_end, append_upper) :=
    if (before =? after)%Z then
      let! v := rdZ mstart before in Ok ((v - 1)%Z, false)
    else Ok ((-1)%Z, true) in
  let! ls := put ls (gap_start + 1) in
  let! le := if (append_upper : bool) then Ok le else put le (gap_end + 1) in
  Ok (ls, le, append_upper).
(** src/interval.c:605-651: no interval between the bounds *)
Definition lone_gap (mstart mend : list Z) (lower_after lower_before upper_after upper_before : Z) (append_lower append_upper : bool)
    (ls le : list Z * nat) : res ((list Z * nat) * (list Z * nat) * bool * bool) :=
  let! (lower_in, gap_start, append_lower) :=
    if (lower_before =? lower_after)%Z then
      let! v := rdZ mend lower_before in Ok (true, (v - 1)%Z, append_lower)
    else Ok (false, (-1)%Z, true) in
  let! (upper_in, gap_end, append_upper) :=
    if (upper_before =? upper_after)%Z then
      let! v := rdZ mstart upper_before in Ok (true, (v - 1)%Z, append_upper)
    else Ok (false, (-1)%Z, true) in
  let same := (lower_in && upper_in && (lower_before =? upper_before)%Z)%bool in
  let! ls := if negb append_lower && negb same then put ls (gap_start + 1) else Ok ls in
  let! le := if negb append_upper && negb same then put le (gap_end + 1) else Ok le in
  Ok (ls, le, append_lower, append_upper).

(** src/interval.c:310-714 [vec_interval_complement]; returns the rows of the
    new starts and ends.  [vec_c()] of a bound and the slice is the
    concatenation of their rows. *)
Definition vec_interval_complement (fuel : nat) (s e : oproxy) (lower upper : option oproxy) (tls : truelengths)
    : res (list (list elt) * list (list elt)) :=
  let use_lower := match lower with Some _ => true | None => false end in
  let use_upper := match upper with Some _ => true | None => false end in
  let! _ := check_bound lower in
  let! _ := check_bound upper in
  (* lines 430-450 *)
  let! special :=
    match lower, upper with
    | Some l, Some u => let! c := fn_compare l 0 u 0 in Ok (0 <=? c)%Z
    | _, _ => Ok false
    end in
  if (special : bool) then Ok ([], [])
  else
    let! (mstart, mend, _) := vec_interval_group_info fuel s e true true false tls in
    let size := length mstart in
    (* lines 478-487 *)
    let max_size_start := if use_upper then size else size - 1 in
    let max_size_end := if use_lower then size else size - 1 in
    let ls := (alloc max_size_start, 0) in
    let le := (alloc max_size_end, 0) in
    let! (i, lower_after, lower_before) :=
      if use_lower then lower_loop s e mstart mend lower size else Ok (0, (-1)%Z, 0%Z) in
    let! (size, upper_after, upper_before) :=
      if use_upper then upper_loop s e mstart mend upper size else Ok (size, (Z.of_nat size - 1)%Z, Z.of_nat size) in
    let between := i <? size in
    let! (ls, le, append_lower) :=
      if use_lower && between then lower_gap mstart mend lower_after lower_before ls le else Ok (ls, le, false) in
    let! (ls, le) := inner_gaps mstart mend i size ls le in
    let! (ls, le, append_upper) :=
      if use_upper && between then upper_gap mstart mend upper_after upper_before ls le else Ok (ls, le, false) in
    let! (ls, le, append_lower, append_upper) :=
      if use_lower && use_upper && negb between
      then lone_gap mstart mend lower_after lower_before upper_after upper_before append_lower append_upper ls le
      else Ok (ls, le, append_lower, append_upper) in
    (* lines 653-699 *)
    let! out_start := slice_rows (orows e) (take ls.2 ls.1) in
    let! out_end := slice_rows (orows s) (take le.2 le.1) in
    Ok ((if append_lower then default [] (orows <$> lower) else []) ++ out_start,
        out_end ++ (if append_upper then default [] (orows <$> upper) else [])).
