(** * Model: locating matches (src/match.c, src/match-joint.c, src/match-compare.h) *)
From Verif Require Import Base M_Double M_Scalar M_Slice M_Object M_Proxy M_OrderChr M_OrderDf M_Rank.

(** The inputs are the columns of [needles] and [haystack] after the common
    type, as ordering proxies ([vec_joint_proxy_order()], normalised, collated
    and flattened): a bare vector or a packed data frame of bare columns.
    [vec_detect_complete()] is on the same columns (list columns and classes
    with an own proxy are not modelled).  Locations in error messages and
    warnings are left out.  Locations are [r_ssize] stored in [int]; sizes are
    at most [INT_MAX] since ordering fails beyond.  [r_dyn_push_back()] of an
    [r_ssize] into a dynamic array of [int] copies the first four bytes, which
    are the low ones on a little-endian machine; the model pushes the number. *)

(** src/match.c:5-69 *)
Inductive multiple := MULTIPLE_all | MULTIPLE_any | MULTIPLE_first | MULTIPLE_last | MULTIPLE_warning | MULTIPLE_error.
Inductive relationship :=
| REL_none | REL_one_to_one | REL_one_to_many | REL_many_to_one | REL_many_to_many | REL_warn_many_to_many.
Inductive mfilter := FILTER_none | FILTER_min | FILTER_max.
Inductive mop := OPS_eq | OPS_gt | OPS_gte | OPS_lt | OPS_lte.
Inductive incomplete := INC_compare | INC_match | INC_value (value : Z) | INC_drop | INC_error.
Inductive no_match := NM_drop | NM_error | NM_value (value : Z).
Inductive remaining := REM_drop | REM_error | REM_value (value : Z).

Definition mop_eqb (a b : mop) : bool :=
  match a, b with
  | OPS_eq, OPS_eq | OPS_gt, OPS_gt | OPS_gte, OPS_gte | OPS_lt, OPS_lt | OPS_lte, OPS_lte => true
  | _, _ => false
  end.
Definition filter_is_none (f : mfilter) : bool := match f with FILTER_none => true | _ => false end.
Definition is_any (m : multiple) : bool := match m with MULTIPLE_any => true | _ => false end.

(** src/match.c:76-77 *)
Definition SIGNAL_NO_MATCH : Z := NA_INTEGER.
Definition SIGNAL_INCOMPLETE : Z := (-1)%Z.

(** src/match.c:2650-2652 [midpoint]; C division truncates *)
Definition midpoint (lhs rhs : Z) : Z := (lhs + Z.quot (rhs - lhs) 2)%Z.

(** [v[v_o[loc] - 1]] *)
Definition rd_o {A} (v : list A) (v_o : list Z) (loc : Z) : res A :=
  let! l := rdZ v_o loc in rdZ v (l - 1).

(** ** Joint ranks *)
(** src/match-compare.h:24-79, 88-128 [p_order_compare_na_equal] on bare
    columns; the columns have the same type. *)
Definition dbl_order_compare_na_equal (x y : dbl) (nan_distinct : bool) : Z :=
  match dbl_classify x, dbl_classify y with
  | DblNumber, DblNumber => dbl_compare_scalar x y
  | DblNumber, _ => 1
  | DblMissing, DblNumber => -1
  | DblMissing, DblMissing => 0
  | DblMissing, DblNan => if nan_distinct then -1 else 0
  | DblNan, DblNumber => -1
  | DblNan, DblMissing => if nan_distinct then 1 else 0
  | DblNan, DblNan => 0
  end%Z.
Definition cpl_order_compare_na_equal (x y : dbl * dbl) (nan_distinct : bool) : Z :=
  let x := cpl_normalise_missing x in
  let y := cpl_normalise_missing y in
  let cmp := dbl_order_compare_na_equal x.1 y.1 nan_distinct in
  if (cmp =? 0)%Z then dbl_order_compare_na_equal x.2 y.2 nan_distinct else cmp.
Definition p_order_compare_na_equal (x : ocol) (i : Z) (y : ocol) (j : Z) (nan_distinct : bool) : res Z :=
  match x, y with
  | OLgl x, OLgl y => let! a := rdZ x i in let! b := rdZ y j in Ok (lgl_compare_na_equal a b)
  | OInt x, OInt y => let! a := rdZ x i in let! b := rdZ y j in Ok (int_compare_na_equal a b)
  | ODbl x, ODbl y => let! a := rdZ x i in let! b := rdZ y j in Ok (dbl_order_compare_na_equal a b nan_distinct)
  | OCpl x, OCpl y => let! a := rdZ x i in let! b := rdZ y j in Ok (cpl_order_compare_na_equal a b nan_distinct)
  | OChr x, OChr y => let! a := rdZ x i in let! b := rdZ y j in chr_compare_na_equal a b
  | _, _ => UB "columns of different types"
  end.
(** src/match-compare.h:131-165 [p_df_order_compare_na_equal] *)
Definition p_df_order_compare_na_equal (x : list ocol) (i : Z) (y : list ocol) (j : Z) (nan_distinct : bool) : res Z :=
  for_brk 0 (length x) (fun col _ =>
    let! x_col := rd x col in
    let! y_col := rd y col in
    let! cmp := p_order_compare_na_equal x_col i y_col j nan_distinct in
    if (cmp =? 0)%Z then Ok (Next 0%Z) else Ok (Break cmp)) 0%Z.
Definition joint_compare (x : oproxy) (i : Z) (y : oproxy) (j : Z) (nan_distinct : bool) : res Z :=
  match x, y with
  | OVec x, OVec y => p_order_compare_na_equal x i y j nan_distinct
  | ODf x _, ODf y _ => p_df_order_compare_na_equal x i y j nan_distinct
  | _, _ => UB "columns of different types"
  end.

(** The inner loops of src/match-joint.c:6-47: the next [group_size] locations of
    [v_o] get the rank. *)
Definition rank_group (v_o : list Z) (group_size : nat) (rank : Z) (o_loc : nat) (v_ranks : list Z) : res (nat * list Z) :=
  for_ 0 group_size (fun _ '((o_loc, v_ranks) : nat * list Z) =>
    let! l := rd v_o o_loc in
    let! v_ranks := wrZ v_ranks (l - 1) rank in
    Ok (S o_loc, v_ranks)) (o_loc, v_ranks).

(** State of the merge: next group, place in the order and ranks, for [x] and [y]. *)
Record jstate := J { j_i : nat; j_x_o_loc : nat; j_x_ranks : list Z; j_j : nat; j_y_o_loc : nat; j_y_ranks : list Z; j_rank : Z }.

(** src/match-joint.c:6-47 [VEC_JOINT_XTFRM_LOOP]; every iteration advances [i]
    or [j], so [fuel] is enough when it exceeds the number of groups. *)
Fixpoint joint_xtfrm_loop (fuel : nat) (x y : oproxy) (nan_distinct : bool) (x_o : list Z) (x_gs : list nat)
    (y_o : list Z) (y_gs : list nat) (s : jstate) : res jstate :=
  if (j_i s <? length x_gs) && (j_j s <? length y_gs) then
    match fuel with
    | O => Err "out of fuel"
    | S fuel =>
        let! x_group_size := rd x_gs (j_i s) in
        let! y_group_size := rd y_gs (j_j s) in
        let! x_l := rd x_o (j_x_o_loc s) in
        let! y_l := rd y_o (j_y_o_loc s) in
        let! cmp := joint_compare x (x_l - 1) y (y_l - 1) nan_distinct in
        let! s :=
          if (cmp =? -1)%Z then
            let! (x_o_loc, x_ranks) := rank_group x_o x_group_size (j_rank s) (j_x_o_loc s) (j_x_ranks s) in
            Ok (J (S (j_i s)) x_o_loc x_ranks (j_j s) (j_y_o_loc s) (j_y_ranks s) (j_rank s))
          else if (cmp =? 1)%Z then
            let! (y_o_loc, y_ranks) := rank_group y_o y_group_size (j_rank s) (j_y_o_loc s) (j_y_ranks s) in
            Ok (J (j_i s) (j_x_o_loc s) (j_x_ranks s) (S (j_j s)) y_o_loc y_ranks (j_rank s))
          else
            let! (x_o_loc, x_ranks) := rank_group x_o x_group_size (j_rank s) (j_x_o_loc s) (j_x_ranks s) in
            let! (y_o_loc, y_ranks) := rank_group y_o y_group_size (j_rank s) (j_y_o_loc s) (j_y_ranks s) in
            Ok (J (S (j_i s)) x_o_loc x_ranks (S (j_j s)) y_o_loc y_ranks (j_rank s)) in
        let! rank := int_add (j_rank s) 1 in
        joint_xtfrm_loop fuel x y nan_distinct x_o x_gs y_o y_gs
          (J (j_i s) (j_x_o_loc s) (j_x_ranks s) (j_j s) (j_y_o_loc s) (j_y_ranks s) rank)
    end
  else Ok s.

(** src/match-joint.c:169-193: the groups that remain *)
Definition joint_xtfrm_rest (v_o : list Z) (gs : list nat) (i : nat) (s : nat * list Z * Z) : res (nat * list Z * Z) :=
  for_ i (length gs - i) (fun i '((o_loc, v_ranks, rank) : nat * list Z * Z) =>
    let! group_size := rd gs i in
    let! (o_loc, v_ranks) := rank_group v_o group_size rank o_loc v_ranks in
    let! rank := int_add rank 1 in
    Ok (o_loc, v_ranks, rank)) s.

(** How [vec_order_info()] sees an ordering proxy: for a data frame, every column
    stands for itself. *)
Definition proxy_ox (p : oproxy) : ox :=
  match p with OVec _ => XVec | ODf cols _ => XDf (replicate (length cols) 1) end.

(** src/match-joint.c:76-197 [vec_joint_xtfrm] *)
Definition vec_joint_xtfrm (fuel : nat) (x y : oproxy) (x_size y_size : nat) (nan_distinct : bool) (tls : truelengths)
    : res (list Z * list Z) :=
  let! (x_o, x_gs) := vec_order_info fuel (proxy_ox x) x [false] [false] nan_distinct tls in
  let! (y_o, y_gs) := vec_order_info fuel (proxy_ox y) y [false] [false] nan_distinct tls in
  let! s := joint_xtfrm_loop (length x_gs + length y_gs) x y nan_distinct x_o x_gs y_o y_gs
              (J 0 0 (alloc x_size) 0 0 (alloc y_size) (INT_MIN + 1)) in
  let! (_, x_ranks, rank) := joint_xtfrm_rest x_o x_gs (j_i s) (j_x_o_loc s, j_x_ranks s, j_rank s) in
  let! (_, y_ranks, _) := joint_xtfrm_rest y_o y_gs (j_j s) (j_y_o_loc s, j_y_ranks s, rank) in
  Ok (x_ranks, y_ranks).

(** src/match.c:1208-1236 [df_joint_xtfrm_by_col] *)
Fixpoint df_joint_xtfrm_by_col (fuel : nat) (x y : list oproxy) (x_size y_size : nat) (nan_distinct : bool) (tls : truelengths)
    : res (list (list Z) * list (list Z)) :=
  match x, y with
  | [], [] => Ok ([], [])
  | x_col :: x, y_col :: y =>
      let! (x_ranks, y_ranks) := vec_joint_xtfrm fuel x_col y_col x_size y_size nan_distinct tls in
      let! (xs, ys) := df_joint_xtfrm_by_col fuel x y x_size y_size nan_distinct tls in
      Ok (x_ranks :: xs, y_ranks :: ys)
  | _, _ => UB "different numbers of columns"
  end.

(** src/match.c:1241-1257 [df_detect_complete_by_col] *)
Fixpoint df_detect_complete_by_col (x : list oproxy) : res (list (list Z)) :=
  match x with
  | [] => Ok []
  | col :: x =>
      let! complete := vec_detect_complete (oproxy_proxy col) in
      let! out := df_detect_complete_by_col x in
      Ok (complete :: out)
  end.

(** ** Binary searches.  The loops run at most [upper - lower + 1] times. *)
Definition range_fuel (lower upper : Z) : nat := Z.to_nat (upper - lower + 1).

(** src/match.c:1085-1102 [int_locate_upper_incomplete] *)
Fixpoint int_locate_upper_incomplete_loop (fuel : nat) (complete v_o : list Z) (lower upper : Z) : res Z :=
  if (lower <=? upper)%Z then
    match fuel with
    | O => Err "out of fuel"
    | S fuel =>
        let mid := midpoint lower upper in
        let! c := rd_o complete v_o mid in
        if negb (c =? 0)%Z then int_locate_upper_incomplete_loop fuel complete v_o lower (mid - 1)
        else int_locate_upper_incomplete_loop fuel complete v_o (mid + 1) upper
    end
  else Ok upper.
Definition int_locate_upper_incomplete (complete v_o : list Z) (lower upper : Z) : res Z :=
  int_locate_upper_incomplete_loop (range_fuel lower upper) complete v_o lower upper.

(** src/match.c:1110-1128 [int_locate_lower_duplicate] *)
Fixpoint int_locate_lower_duplicate_loop (fuel : nat) (val_needle : Z) (v_haystack v_o : list Z) (lower upper : Z) : res Z :=
  if (lower <=? upper)%Z then
    match fuel with
    | O => Err "out of fuel"
    | S fuel =>
        let mid := midpoint lower upper in
        let! v := rd_o v_haystack v_o mid in
        if int_equal_na_equal val_needle v then int_locate_lower_duplicate_loop fuel val_needle v_haystack v_o lower (mid - 1)
        else int_locate_lower_duplicate_loop fuel val_needle v_haystack v_o (mid + 1) upper
    end
  else Ok lower.
Definition int_locate_lower_duplicate (val_needle : Z) (v_haystack v_o : list Z) (lower upper : Z) : res Z :=
  int_locate_lower_duplicate_loop (range_fuel lower upper) val_needle v_haystack v_o lower upper.

(** src/match.c:1136-1154 [int_locate_upper_duplicate] *)
Fixpoint int_locate_upper_duplicate_loop (fuel : nat) (val_needle : Z) (v_haystack v_o : list Z) (lower upper : Z) : res Z :=
  if (lower <=? upper)%Z then
    match fuel with
    | O => Err "out of fuel"
    | S fuel =>
        let mid := midpoint lower upper in
        let! v := rd_o v_haystack v_o mid in
        if int_equal_na_equal val_needle v then int_locate_upper_duplicate_loop fuel val_needle v_haystack v_o (mid + 1) upper
        else int_locate_upper_duplicate_loop fuel val_needle v_haystack v_o lower (mid - 1)
    end
  else Ok upper.
Definition int_locate_upper_duplicate (val_needle : Z) (v_haystack v_o : list Z) (lower upper : Z) : res Z :=
  int_locate_upper_duplicate_loop (range_fuel lower upper) val_needle v_haystack v_o lower upper.

(** src/match.c:1162-1203 [int_locate_match] *)
Fixpoint int_locate_match_loop (fuel : nat) (val_needle : Z) (v_haystack v_o : list Z) (lower upper : Z) : res (Z * Z) :=
  if (lower <=? upper)%Z then
    match fuel with
    | O => Err "out of fuel"
    | S fuel =>
        let mid := midpoint lower upper in
        let! v := rd_o v_haystack v_o mid in
        let cmp := int_compare_na_equal val_needle v in
        if (cmp =? 1)%Z then int_locate_match_loop fuel val_needle v_haystack v_o (mid + 1) upper
        else if (cmp =? -1)%Z then int_locate_match_loop fuel val_needle v_haystack v_o lower (mid - 1)
        else
          let! lower := int_locate_lower_duplicate v v_haystack v_o lower mid in
          let! upper := int_locate_upper_duplicate v v_haystack v_o mid upper in
          Ok (lower, upper)
    end
  else Ok (lower, upper).
Definition int_locate_match (val_needle : Z) (v_haystack v_o : list Z) (lower upper : Z) : res (Z * Z) :=
  int_locate_match_loop (range_fuel lower upper) val_needle v_haystack v_o lower upper.

(** ** Comparing rows of ranks *)
(** src/match.c:2531-2559 [p_nesting_container_df_compare_fully_ge_na_equal]:
    the columns from the last one down to the second. *)
Definition df_compare_fully_ge (x : list (list Z)) (i j : Z) : res bool :=
  for_brk 0 (length x - 1) (fun k _ =>
    let! col := rd x (length x - 1 - k) in
    let! a := rdZ col i in
    let! b := rdZ col j in
    if (int_compare_na_equal a b <? 0)%Z then Ok (Break false) else Ok (Next true)) true.

(** src/match.c:2564-2613 [p_matches_df_compare_na_equal] *)
Definition p_matches_df_compare_na_equal (x : list (list Z)) (i j : Z) (filters : list mfilter) : res Z :=
  for_brk 0 (length x) (fun k _ =>
    let! filter := rd filters k in
    match filter with
    | FILTER_none => Ok (Next 0%Z)
    | FILTER_max =>
        let! col := rd x k in
        let! a := rdZ col i in
        let! b := rdZ col j in
        let cmp := int_compare_na_equal a b in
        if negb (cmp =? 0)%Z then Ok (Break cmp) else Ok (Next 0%Z)
    | FILTER_min =>
        let! col := rd x k in
        let! a := rdZ col i in
        let! b := rdZ col j in
        let cmp := int_compare_na_equal a b in
        if negb (cmp =? 0)%Z then Ok (Break (- cmp)%Z) else Ok (Next 0%Z)
    end) 0%Z.

(** src/match.c:2616-2645 [p_matches_df_equal_na_equal] *)
Definition p_matches_df_equal_na_equal (x : list (list Z)) (i j : Z) (filters : list mfilter) : res bool :=
  for_brk 0 (length x) (fun k _ =>
    let! filter := rd filters k in
    if filter_is_none filter then Ok (Next true)
    else
      let! col := rd x k in
      let! a := rdZ col i in
      let! b := rdZ col j in
      if negb (int_equal_na_equal a b) then Ok (Break false) else Ok (Next true)) true.

(** ** Nesting containers *)
(** [vec_order()] and [vec_order_info()] of a data frame of integer columns,
    increasing with missing values smallest. *)
Definition ints_order (fuel : nat) (cols : list (list Z)) (size : nat) (tls : truelengths) : res (list Z) :=
  vec_order fuel (XDf (replicate (length cols) 1)) (ODf (map OInt cols) size) [false] [false] true tls.
Definition ints_order_info (fuel : nat) (cols : list (list Z)) (size : nat) (tls : truelengths) : res (list Z * list nat) :=
  vec_order_info fuel (XDf (replicate (length cols) 1)) (ODf (map OInt cols) size) [false] [false] true tls.

(** State of the loop over groups: the ids, the last row of each container, the
    number of containers, the next outer group, its start, the start of the group. *)
Record cstate := C { c_ids : list Z; c_prev : list Z; c_n : nat; c_outer : nat; c_next : nat; c_start : nat }.

(** src/match.c:2491-2502: the first container whose last row is not above the row. *)
Definition find_container (x : list (list Z)) (cur_row : Z) (prev_rows : list Z) : res nat :=
  let! (id, _) := for_brk 0 (length prev_rows) (fun id '((_, _) : nat * unit) =>
    let! prev_row := rd prev_rows id in
    let! ge := df_compare_fully_ge x cur_row prev_row in
    if (ge : bool) then Ok (Break (id, tt)) else Ok (Next (S id, tt))) (0, tt) in
  Ok id.

(** src/match.c:2420-2528 [compute_nesting_container_ids]; [outer] are the outer
    group sizes, if any. *)
Definition compute_nesting_container_ids (x : list (list Z)) (v_order : list Z) (group_sizes : list nat)
    (outer : option (list nat)) (size : nat) : res (list Z * nat) :=
  let ids := replicate size 0%Z in
  if (size =? 0) || (length x =? 1) then Ok (ids, 1) else
  let! s := for_ 0 (length group_sizes) (fun i s =>
    let! (prev, next, outer_loc) := match outer with
      | Some outer_group_sizes =>
          if c_next s =? c_start s then
            let! g := rd outer_group_sizes (c_outer s) in Ok ([], c_next s + g, S (c_outer s))
          else Ok (c_prev s, c_next s, c_outer s)
      | None => Ok (c_prev s, c_next s, c_outer s)
      end in
    let! group_size := rd group_sizes i in
    let! l := rd v_order (c_start s) in
    let cur_row := (l - 1)%Z in
    let! id := find_container x cur_row prev in
    let! (prev, n) :=
      if id =? length prev then
        let prev := prev ++ [cur_row] in
        Ok (prev, if c_n s <? length prev then length prev else c_n s)
      else
        let! prev := wr prev id cur_row in Ok (prev, c_n s) in
    let! (start, ids) := rank_group v_order group_size (Z.of_nat id) (c_start s) (c_ids s) in
    Ok (C ids prev n outer_loc next start)) (C ids [] 1 0 0 0) in
  Ok (c_ids s, c_n s).

(** src/match.c:2224-2414 [compute_nesting_container_info]: the order of the
    haystack, container ids (if more than one container), number of containers
    and whether there is a non-equi condition. *)
Fixpoint first_non_equi (ops : list mop) : option nat :=
  match ops with
  | [] => None
  | op :: ops => if mop_eqb op OPS_eq then S <$> first_non_equi ops else Some 0
  end.
(** src/match.c:2374-2386: the number of the group as proxy value *)
Definition haystack_proxy_of (o : list Z) (group_sizes : list nat) (size : nat) : res (list Z) :=
  let! (_, proxy) := for_ 0 (length group_sizes) (fun i '((start, proxy) : nat * list Z) =>
    let! group_size := rd group_sizes i in
    rank_group o group_size (Z.of_nat i) start proxy) (0, alloc size) in
  Ok proxy.
Definition compute_nesting_container_info (fuel : nat) (haystack : list (list Z)) (size : nat) (ops : list mop)
    (tls : truelengths) : res (list Z * list Z * nat * bool) :=
  match first_non_equi ops with
  | None => let! o := ints_order fuel haystack size tls in Ok (o, [], 1, false)
  | Some first =>
      let! (o, group_sizes) := ints_order_info fuel haystack size tls in
      let! outer :=
        if negb (first =? 0) then
          let! (_, outer) := ints_order_info fuel (take first haystack) size tls in Ok (Some outer)
        else Ok None in
      let! (ids, n_containers) :=
        compute_nesting_container_ids (drop first haystack) o group_sizes outer size in
      if n_containers =? 1 then Ok (o, [], 1, true)
      else
        let! proxy := haystack_proxy_of o group_sizes size in
        let! o := ints_order fuel [ids; proxy] size tls in
        Ok (o, ids, n_containers, true)
  end.

(** ** Recording matches *)
(** The arguments of the recursion that do not change. *)
Record menv := ME {
  e_needles : list (list Z); e_haystack : list (list Z);
  e_needles_complete : list (list Z); e_haystack_complete : list (list Z);
  e_o_needles : list Z; e_o_haystack : list Z;
  e_incomplete : incomplete; e_multiple : multiple;
  e_filters : list mfilter; e_ops : list mop }.
Definition any_filters (filters : list mfilter) : bool := existsb (fun f => negb (filter_is_none f)) filters.

(** The outputs: [p_loc_first_match_o_haystack], [p_size_match], [p_loc_needles]
    and [v_loc_filter_match_o_haystack] (not initialised). *)
Record mstate := MS { m_first : list Z; m_size : list Z; m_loc : list Z; m_filter : list (option Z) }.

Definition tracks_incomplete (i : incomplete) : bool :=
  match i with INC_value _ | INC_drop | INC_error => true | INC_compare | INC_match => false end.

(** src/match.c:783-875: record the match [lower..upper] of one needle. *)
Definition record_match (e : menv) (loc_needles lower upper : Z) (s : mstate) : res mstate :=
  let! first := rdZ (m_first s) loc_needles in
  let first_touch := (first =? NA_INTEGER)%Z in
  match e_multiple e with
  | MULTIPLE_any =>
      if first_touch then
        let! f := wrZ (m_first s) loc_needles lower in Ok (MS f (m_size s) (m_loc s) (m_filter s))
      else if any_filters (e_filters e) then
        let! loc_first := rdZ (e_o_haystack e) first in
        let! loc_lower := rdZ (e_o_haystack e) lower in
        let! cmp := p_matches_df_compare_na_equal (e_haystack e) (loc_lower - 1) (loc_first - 1) (e_filters e) in
        if (cmp =? 1)%Z then
          let! f := wrZ (m_first s) loc_needles lower in Ok (MS f (m_size s) (m_loc s) (m_filter s))
        else Ok s
      else Ok s
  | _ =>
      let size_match := (upper - lower + 1)%Z in
      if first_touch then
        let! f := wrZ (m_first s) loc_needles lower in
        let! sz := wrZ (m_size s) loc_needles size_match in
        let! fl := if any_filters (e_filters e) then wrZ (m_filter s) loc_needles (Some lower) else Ok (m_filter s) in
        Ok (MS f sz (m_loc s) fl)
      else
        let! r :=
          if any_filters (e_filters e) then
            let! old := rdZ (m_filter s) loc_needles in
            match old with
            | None => UB "read of uninitialised memory"
            | Some old =>
                let! loc_filter := rdZ (e_o_haystack e) old in
                let! loc_lower := rdZ (e_o_haystack e) lower in
                let! cmp := p_matches_df_compare_na_equal (e_haystack e) (loc_lower - 1) (loc_filter - 1) (e_filters e) in
                if (cmp =? -1)%Z then Ok None
                else if (cmp =? 1)%Z then let! fl := wrZ (m_filter s) loc_needles (Some lower) in Ok (Some fl)
                else Ok (Some (m_filter s))
            end
          else Ok (Some (m_filter s)) in
        match r with
        | None => Ok s
        | Some fl => Ok (MS (m_first s ++ [lower]) (m_size s ++ [size_match]) (m_loc s ++ [loc_needles]) fl)
        end
  end.

(** [r_dyn_int_poke(p_loc_first_match_o_haystack, loc_needles, SIGNAL_INCOMPLETE)] *)
Definition signal_incomplete (loc_needles : Z) (s : mstate) : res mstate :=
  let! f := wrZ (m_first s) loc_needles SIGNAL_INCOMPLETE in Ok (MS f (m_size s) (m_loc s) (m_filter s)).

(** [for (i = lower; i <= upper; ++i)] over the needles in order *)
Definition for_needles (v_o_needles : list Z) (lower upper : Z) (body : Z -> mstate -> res mstate) (s : mstate) : res mstate :=
  for_ 0 (Z.to_nat (upper - lower + 1)) (fun k s =>
    let! l := rdZ v_o_needles (lower + Z.of_nat k) in body (l - 1)%Z s) s.

(** ** Searching a column *)
(** src/match.c:628-669: adjust the bounds of the equal values to the condition.
    An incomplete needle never reaches past itself. *)
Definition adjust_bounds (op : mop) (inc : incomplete) (needle_is_complete : bool) (lower upper lower_bound upper_bound : Z) : Z * Z :=
  let bounds_op := if negb needle_is_complete && (match inc with INC_match => true | _ => false end) then OPS_eq else op in
  match bounds_op with
  | OPS_lt => ((upper + 1)%Z, if needle_is_complete then upper_bound else upper)
  | OPS_lte => (lower, if needle_is_complete then upper_bound else upper)
  | OPS_gt => (if needle_is_complete then lower_bound else lower, (lower - 1)%Z)
  | OPS_gte => (if needle_is_complete then lower_bound else lower, upper)
  | OPS_eq => (lower, upper)
  end.

(** src/match.c:671-695: skip the missing values at the lower bound. *)
Definition skip_incomplete (complete v_o : list Z) (op : mop) (needle_is_complete : bool) (lower upper : Z) : res Z :=
  if needle_is_complete && (mop_eqb op OPS_gt || mop_eqb op OPS_gte) && (lower <=? upper)%Z then
    let! c := rd_o complete v_o lower in
    if (c =? 0)%Z then
      let! l := int_locate_upper_incomplete complete v_o lower upper in Ok (l + 1)%Z
    else Ok lower
  else Ok lower.

(** src/match.c:700-754: the largest or smallest values of the match. *)
Definition filter_bounds (v_haystack v_o : list Z) (filter : mfilter) (op : mop) (needle_is_complete : bool) (lower upper : Z)
    : res (Z * Z) :=
  match filter with
  | FILTER_none => Ok (lower, upper)
  | FILTER_max =>
      if negb needle_is_complete || mop_eqb op OPS_eq then Ok (lower, upper)
      else
        let! val_lower := rd_o v_haystack v_o lower in
        let! val_upper := rd_o v_haystack v_o upper in
        if negb (val_lower =? val_upper)%Z then
          let! lower := int_locate_lower_duplicate val_upper v_haystack v_o lower upper in Ok (lower, upper)
        else Ok (lower, upper)
  | FILTER_min =>
      if negb needle_is_complete || mop_eqb op OPS_eq then Ok (lower, upper)
      else
        let! val_lower := rd_o v_haystack v_o lower in
        let! val_upper := rd_o v_haystack v_o upper in
        if negb (val_lower =? val_upper)%Z then
          let! upper := int_locate_upper_duplicate val_lower v_haystack v_o lower upper in Ok (lower, upper)
        else Ok (lower, upper)
  end.

(** src/match.c:885-897: is one of the later columns of the needle incomplete? *)
Definition future_incomplete (needles_complete : list (list Z)) (col : nat) (loc_needles : Z) : res bool :=
  for_brk (S col) (length needles_complete - S col) (fun j _ =>
    let! v := rd needles_complete j in
    let! c := rdZ v loc_needles in
    if (c =? 0)%Z then Ok (Break true) else Ok (Next false)) false.

(** src/match.c:488-1008 [df_locate_matches_recurse].  Every call handles fewer
    columns or fewer needles, so [fuel] is enough when it is the number of
    columns plus the number of needles. *)
Fixpoint df_locate_matches_recurse (fuel : nat) (e : menv) (col : nat) (nlo nhi hlo hhi : Z) (s : mstate) : res mstate :=
  match fuel with
  | O => Err "out of fuel"
  | S fuel =>
      let! op := rd (e_ops e) col in
      let! filter := rd (e_filters e) col in
      let n_col := length (e_needles e) in
      let! v_needles := rd (e_needles e) col in
      let! v_needles_complete := rd (e_needles_complete e) col in
      let! v_haystack := rd (e_haystack e) col in
      let! v_haystack_complete := rd (e_haystack_complete e) col in
      let mid := midpoint nlo nhi in
      let! val_needle := rd_o v_needles (e_o_needles e) mid in
      let! c := rd_o v_needles_complete (e_o_needles e) mid in
      let needle_is_complete := negb (c =? 0)%Z in
      let! dup_lo := int_locate_lower_duplicate val_needle v_needles (e_o_needles e) nlo mid in
      let! dup_hi := int_locate_upper_duplicate val_needle v_needles (e_o_needles e) mid nhi in
      if negb needle_is_complete && tracks_incomplete (e_incomplete e) then
        let! s := for_needles (e_o_needles e) dup_lo dup_hi signal_incomplete s in
        let! s := if (nlo <? dup_lo)%Z then df_locate_matches_recurse fuel e col nlo (dup_lo - 1) hlo hhi s else Ok s in
        if (dup_hi <? nhi)%Z then df_locate_matches_recurse fuel e col (dup_hi + 1) nhi hlo hhi s else Ok s
      else
        let! (lower, upper) := int_locate_match val_needle v_haystack (e_o_haystack e) hlo hhi in
        let '(lower, upper) := adjust_bounds op (e_incomplete e) needle_is_complete lower upper hlo hhi in
        let! lower := skip_incomplete v_haystack_complete (e_o_haystack e) op needle_is_complete lower upper in
        let! (lower, upper, s) :=
          if (lower <=? upper)%Z then
            let! (lower, upper) := filter_bounds v_haystack (e_o_haystack e) filter op needle_is_complete lower upper in
            let! s :=
              if col <? n_col - 1 then df_locate_matches_recurse fuel e (S col) dup_lo dup_hi lower upper s
              else for_needles (e_o_needles e) dup_lo dup_hi (fun l s => record_match e l lower upper s) s in
            Ok (lower, upper, s)
          else if (col <? n_col - 1) && tracks_incomplete (e_incomplete e) then
            let! s := for_needles (e_o_needles e) dup_lo dup_hi (fun l s =>
              let! inc := future_incomplete (e_needles_complete e) col l in
              if (inc : bool) then signal_incomplete l s else Ok s) s in
            Ok (lower, upper, s)
          else Ok (lower, upper, s) in
        let eq := mop_eqb op OPS_eq in
        let do_lhs := (nlo <? dup_lo)%Z && (negb eq || (hlo <? lower)%Z) in
        let do_rhs := (dup_hi <? nhi)%Z && (negb eq || (upper <? hhi)%Z) in
        let! s := if do_lhs
          then df_locate_matches_recurse fuel e col nlo (dup_lo - 1) hlo (if eq then lower - 1 else hhi)%Z s
          else Ok s in
        if do_rhs
        then df_locate_matches_recurse fuel e col (dup_hi + 1) nhi (if eq then upper + 1 else hlo)%Z hhi s
        else Ok s
  end.

(** src/match.c:1013-1077 [df_locate_matches_with_containers] *)
Definition df_locate_matches_with_containers (fuel : nat) (e : menv) (n_containers : nat) (ids : list Z)
    (nlo nhi hlo hhi : Z) (s : mstate) : res mstate :=
  let! (_, s) := for_ 0 n_containers (fun i '((hlo, s) : Z * mstate) =>
    let! (lower, upper) := int_locate_match (Z.of_nat i) ids (e_o_haystack e) hlo hhi in
    let! s := df_locate_matches_recurse fuel e 0 nlo nhi lower upper s in
    Ok ((upper + 1)%Z, s)) (hlo, s) in
  Ok s.

(** ** Expanding the matches *)
Inductive mwarning := WARN_multiple | WARN_many_to_many.

(** State of the loop over the recorded matches. *)
Record xstate := X {
  x_needles : list Z; x_haystack : list Z; x_loc_out : nat;
  x_any_multiple_needles : bool; x_any_multiple_haystack : bool;
  x_check_needles : bool; x_previous : Z; x_check_haystack : bool; x_track : bool;
  x_detect : list bool; x_overall : Z; x_warnings : list mwarning }.

(** [v_out_needles[loc_out] = ...; v_out_haystack[loc_out] = ...] *)
Definition x_store (loc_needles loc_haystack : Z) (s : xstate) : res xstate :=
  let! n := wr (x_needles s) (x_loc_out s) loc_needles in
  let! h := wr (x_haystack s) (x_loc_out s) loc_haystack in
  Ok (X n h (x_loc_out s) (x_any_multiple_needles s) (x_any_multiple_haystack s) (x_check_needles s) (x_previous s)
        (x_check_haystack s) (x_track s) (x_detect s) (x_overall s) (x_warnings s)).
Definition x_next_out (s : xstate) : xstate :=
  X (x_needles s) (x_haystack s) (S (x_loc_out s)) (x_any_multiple_needles s) (x_any_multiple_haystack s) (x_check_needles s)
    (x_previous s) (x_check_haystack s) (x_track s) (x_detect s) (x_overall s) (x_warnings s).
Definition x_set_overall (v : Z) (s : xstate) : xstate :=
  X (x_needles s) (x_haystack s) (x_loc_out s) (x_any_multiple_needles s) (x_any_multiple_haystack s) (x_check_needles s)
    (x_previous s) (x_check_haystack s) (x_track s) (x_detect s) v (x_warnings s).

(** src/match.c:1829-1923: check for multiple matches of a needle. *)
Definition check_needles (m : multiple) (rel : relationship) (loc_needles size_match : Z) (s : xstate) : res xstate :=
  if x_check_needles s then
    let any := x_any_multiple_needles s || (1 <? size_match)%Z || (loc_needles =? x_previous s)%Z in
    let previous := if (1 <? size_match)%Z || (loc_needles =? x_previous s)%Z then x_previous s else loc_needles in
    if any then
      let! warnings := match m with
        | MULTIPLE_all => Ok (x_warnings s)
        | MULTIPLE_error => Err "multiple matches"
        | MULTIPLE_warning => Ok (x_warnings s ++ [WARN_multiple])
        | _ => Err "internal"
        end in
      let! warnings := match rel with
        | REL_one_to_one => Err "relationship one-to-one: multiple matches of a needle"
        | REL_many_to_one => Err "relationship many-to-one: multiple matches of a needle"
        | REL_warn_many_to_many => Ok (if x_any_multiple_haystack s then warnings ++ [WARN_many_to_many] else warnings)
        | _ => Ok warnings
        end in
      Ok (X (x_needles s) (x_haystack s) (x_loc_out s) true (x_any_multiple_haystack s) false previous
            (x_check_haystack s) (x_track s) (x_detect s) (x_overall s) warnings)
    else
      Ok (X (x_needles s) (x_haystack s) (x_loc_out s) false (x_any_multiple_haystack s) true previous
            (x_check_haystack s) (x_track s) (x_detect s) (x_overall s) (x_warnings s))
  else Ok s.

(** src/match.c:1987-2025, 2043-2094: check for multiple matches of a haystack
    location, and note that it has a match.  [one] is for [multiple] of
    ["first"] and ["last"]. *)
Definition note_haystack (rel : relationship) (retain one : bool) (loc_haystack : Z) (s : xstate) : res xstate :=
  if x_track s then
    let! (any, check, track, warnings) :=
      if x_check_haystack s then
        let! any := rdZ (x_detect s) loc_haystack in
        if (any : bool) then
          match rel with
          | REL_one_to_one => Err "relationship one-to-one: multiple matches in the haystack"
          | REL_one_to_many => Err "relationship one-to-many: multiple matches in the haystack"
          | REL_warn_many_to_many =>
              if (one : bool) then Err "internal"
              else Ok (any, false, retain, if x_any_multiple_needles s then x_warnings s ++ [WARN_many_to_many] else x_warnings s)
          | _ => Err "internal"
          end
        else Ok (any, true, x_track s, x_warnings s)
      else Ok (x_any_multiple_haystack s, false, x_track s, x_warnings s) in
    let! detect := wrZ (x_detect s) loc_haystack true in
    Ok (X (x_needles s) (x_haystack s) (x_loc_out s) (x_any_multiple_needles s) any (x_check_needles s) (x_previous s)
          check track detect (x_overall s) warnings)
  else Ok s.

(** What [expand_compact_indices()] gets besides the recorded matches. *)
Record xopts := XO {
  xo_o_haystack : list Z; xo_haystack : list (list Z); xo_filters : list mfilter;
  xo_incomplete : incomplete; xo_no_match : no_match; xo_remaining : remaining;
  xo_multiple : multiple; xo_relationship : relationship; xo_any_non_equi : bool }.

Definition one_match_per_needle (m : multiple) : bool :=
  match m with MULTIPLE_any | MULTIPLE_first | MULTIPLE_last => true | _ => false end.
Definition has_filter_match (filters : list mfilter) (m : multiple) : bool := any_filters filters && negb (is_any m).
Definition retain_remaining (r : remaining) : bool := match r with REM_drop => false | _ => true end.
Definition checks_needles (m : multiple) : bool :=
  match m with MULTIPLE_all | MULTIPLE_error | MULTIPLE_warning => true | _ => false end.
(** src/match.c:1690-1712 *)
Definition checks_haystack (m : multiple) (rel : relationship) : bool :=
  match rel with
  | REL_none | REL_many_to_one | REL_many_to_many => false
  | REL_one_to_one | REL_one_to_many => true
  | REL_warn_many_to_many => checks_needles m
  end.

(** src/match.c:1732-1736, for the [i]-th recorded match in the order of needles:
    first match, size, needle. *)
Definition x_entry (ms : mstate) (m : multiple) (o_loc : list Z) (i : nat) : res (Z * Z * Z) :=
  let! loc := if is_any m then Ok (Z.of_nat i) else let! l := rd o_loc i in Ok (l - 1)%Z in
  let! first := rdZ (m_first ms) loc in
  let! size_match := if is_any m then Ok 1%Z else rdZ (m_size ms) loc in
  let! loc_needles := if is_any m then Ok loc else rdZ (m_loc ms) loc in
  Ok (first, size_match, loc_needles).

(** src/match.c:1798-1827: is the recorded match as good as the filter match? *)
Definition x_keep (xo : xopts) (ms : mstate) (first loc_needles : Z) : res bool :=
  if has_filter_match (xo_filters xo) (xo_multiple xo) then
    let! filter := rdZ (m_filter ms) loc_needles in
    match filter with
    | None => UB "read of uninitialised memory"
    | Some filter =>
        if (filter =? first)%Z then Ok true
        else
          let! loc_filter := rdZ (xo_o_haystack xo) filter in
          let! loc_first := rdZ (xo_o_haystack xo) first in
          p_matches_df_equal_na_equal (xo_haystack xo) (loc_first - 1) (loc_filter - 1) (xo_filters xo)
    end
  else Ok true.

(** src/match.c:1944-1963: the smallest (largest) location among the matches. *)
Definition x_best (last : bool) (o_haystack : list Z) (first size_match : Z) (overall : Z) : res Z :=
  for_ 0 (Z.to_nat size_match) (fun j overall =>
    let! l := rdZ o_haystack (first + Z.of_nat j) in
    let loc_haystack := (l - 1)%Z in
    Ok (if if last then (overall <? loc_haystack)%Z else (loc_haystack <? overall)%Z then loc_haystack else overall)) overall.

(** src/match.c:1731-2103: one recorded match. *)
Definition x_step (xo : xopts) (ms : mstate) (o_loc : list Z) (n_used : nat) (i : nat) (s : xstate) : res xstate :=
  let m := xo_multiple xo in
  let! (first, size_match, loc_needles) := x_entry ms m o_loc i in
  if (first =? SIGNAL_INCOMPLETE)%Z then
    if negb (size_match =? 1)%Z then Err "internal" else
    match xo_incomplete xo with
    | INC_value v => let! s := x_store (loc_needles + 1) v s in Ok (x_next_out s)
    | INC_drop => Ok s
    | INC_error => Err "incomplete needle"
    | _ => Err "internal"
    end
  else if (first =? SIGNAL_NO_MATCH)%Z then
    if negb (size_match =? 1)%Z then Err "internal" else
    match xo_no_match xo with
    | NM_value v => let! s := x_store (loc_needles + 1) v s in Ok (x_next_out s)
    | NM_drop => Ok s
    | NM_error => Err "needle without match"
    end
  else
    let! keep := x_keep xo ms first loc_needles in
    if negb keep then Ok s else
    let! s := check_needles m (xo_relationship xo) loc_needles size_match s in
    match m with
    | MULTIPLE_first | MULTIPLE_last =>
        let last := match m with MULTIPLE_last => true | _ => false end in
        let! overall :=
          if (x_overall s =? NA_INTEGER)%Z then let! l := rdZ (xo_o_haystack xo) first in Ok (l - 1)%Z
          else Ok (x_overall s) in
        let! overall := x_best last (xo_o_haystack xo) first size_match overall in
        let s := x_set_overall overall s in
        let! at_end :=
          if i =? n_used - 1 then Ok true
          else
            let! l := rd o_loc (S i) in
            let! loc_needles_next := rdZ (m_loc ms) (l - 1) in
            Ok (negb (loc_needles =? loc_needles_next)%Z) in
        if (at_end : bool) then
          let! s := x_store (loc_needles + 1) (overall + 1) s in
          let! s := note_haystack (xo_relationship xo) (retain_remaining (xo_remaining xo)) true overall s in
          Ok (x_set_overall NA_INTEGER (x_next_out s))
        else Ok s
    | _ =>
        for_ 0 (Z.to_nat size_match) (fun j s =>
          let! l := rdZ (xo_o_haystack xo) (first + Z.of_nat j) in
          let loc_haystack := (l - 1)%Z in
          let! s := x_store (loc_needles + 1) (loc_haystack + 1) s in
          let! s := note_haystack (xo_relationship xo) (retain_remaining (xo_remaining xo)) false loc_haystack s in
          Ok (x_next_out s)) s
    end.

(** src/match.c:2122-2150: order the haystack locations by appearance. *)
Definition reorder_haystack (fuel : nat) (out_needles out_haystack : list Z) (tls : truelengths) : res (list Z) :=
  let! o := ints_order fuel [out_needles; out_haystack] (length out_needles) tls in
  for_ 0 (length out_needles) (fun i o =>
    let! l := rd o i in
    let! v := rdZ out_haystack (l - 1) in
    wr o i v) o.

(** src/match.c:2152-2203: the haystack locations without match *)
Definition append_remaining (rem : remaining) (detect : list bool) (size_haystack : nat) (out_needles out_haystack : list Z)
    : res (list Z * list Z) :=
  match rem with
  | REM_drop => Ok (out_needles, out_haystack)
  | REM_error =>
      let! _ := for_ 0 size_haystack (fun i _ =>
        let! d := rd detect i in if negb d then Err "remaining haystack location" else Ok tt) tt in
      Ok (out_needles, out_haystack)
  | REM_value v =>
      let! n := for_ 0 size_haystack (fun i n => let! d := rd detect i in Ok (if negb d then S n else n)) 0 in
      let size_out := length out_haystack in
      let! (out, _) := for_ 0 size_haystack (fun i '((out, j) : list Z * nat) =>
        let! d := rd detect i in
        if negb d then let! out := wr out j (Z.of_nat i + 1)%Z in Ok (out, S j) else Ok (out, j))
        (out_haystack ++ alloc n, size_out) in
      Ok (out_needles ++ replicate n v, out)
  end.

(** src/match.c:1591-2209 [expand_compact_indices].  The sum of the sizes is a
    [double]: exact up to 2^53, and above INT_MAX when it is larger. *)
Definition expand_compact_indices (fuel : nat) (xo : xopts) (ms : mstate) (size_needles size_haystack : nat) (tls : truelengths)
    : res (list Z * list Z * list mwarning) :=
  let m := xo_multiple xo in
  let n_used := length (m_first ms) in
  let! size_out :=
    if one_match_per_needle m then Ok (Z.of_nat size_needles)
    else
      let! size_out := for_ 0 n_used (fun i acc => let! v := rd (m_size ms) i in Ok (acc + v)%Z) 0%Z in
      if (R_LEN_T_MAX <? size_out)%Z then Err "Match procedure results in an allocation larger than 2^31-1 elements." else Ok size_out in
  let! o_loc :=
    if is_any m then Ok []
    else vec_order fuel XVec (OVec (OInt (m_loc ms))) [false] [false] true tls in
  let check_haystack := checks_haystack m (xo_relationship xo) in
  let retain := retain_remaining (xo_remaining xo) in
  let track := check_haystack || retain in
  let n := Z.to_nat size_out in
  let! s := for_ 0 n_used (x_step xo ms o_loc n_used)
    (X (alloc n) (alloc n) 0 false false (checks_needles m) NA_INTEGER check_haystack track
       (if track then replicate size_haystack false else []) NA_INTEGER []) in
  let out_needles := take (x_loc_out s) (x_needles s) in
  let out_haystack := take (x_loc_out s) (x_haystack s) in
  let! out_haystack :=
    if x_any_multiple_needles s && xo_any_non_equi xo then reorder_haystack fuel out_needles out_haystack tls
    else Ok out_haystack in
  let! (out_needles, out_haystack) := append_remaining (xo_remaining xo) (x_detect s) size_haystack out_needles out_haystack in
  Ok (out_needles, out_haystack, x_warnings s).

(** ** All together *)
(** The options of [vec_locate_matches()]. *)
Record mopts := MO {
  o_incomplete : incomplete; o_no_match : no_match; o_remaining : remaining;
  o_multiple : multiple; o_relationship : relationship; o_nan_distinct : bool }.

(** src/match.c:262-483 [df_locate_matches]; [fuel] is for ordering. *)
Definition df_locate_matches (fuel : nat) (needles haystack needles_complete haystack_complete : list (list Z))
    (size_needles size_haystack : nat) (opts : mopts) (filters : list mfilter) (ops : list mop) (tls : truelengths)
    : res (list Z * list Z * list mwarning) :=
  let! o_needles := ints_order fuel needles size_needles tls in
  let! (o_haystack, ids, n_containers, any_non_equi) := compute_nesting_container_info fuel haystack size_haystack ops tls in
  let skip := is_any (o_multiple opts) in
  let s := MS (replicate size_needles SIGNAL_NO_MATCH)
              (if skip then [] else replicate size_needles 1%Z)
              (if skip then [] else map Z.of_nat (seq 0 size_needles))
              (if has_filter_match filters (o_multiple opts) then replicate size_needles None else []) in
  let e := ME needles haystack needles_complete haystack_complete o_needles o_haystack
              (o_incomplete opts) (o_multiple opts) filters ops in
  let! s :=
    if size_needles =? 0 then Ok s
    else
      let fuel := length needles + size_needles in
      let nhi := (Z.of_nat size_needles - 1)%Z in
      let hhi := (Z.of_nat size_haystack - 1)%Z in
      if n_containers =? 1 then df_locate_matches_recurse fuel e 0 0 nhi 0 hhi s
      else df_locate_matches_with_containers fuel e n_containers ids 0 nhi 0 hhi s in
  expand_compact_indices fuel
    (XO o_haystack haystack filters (o_incomplete opts) (o_no_match opts) (o_remaining opts)
        (o_multiple opts) (o_relationship opts) any_non_equi)
    s size_needles size_haystack tls.

(** src/match.c:1273-1305, 1431-1463 [parse_condition], [parse_filter]: one for
    all columns or one for each. *)
Definition parse_by_col {A} (x : list A) (n_cols : nat) (what : String.string) : res (list A) :=
  match x with
  | [a] => Ok (replicate n_cols a)
  | _ => if length x =? n_cols then Ok x else Err what
  end.

(** src/match.c:132-257 [vec_locate_matches] after the common type and proxies. *)
Definition vec_locate_matches (fuel : nat) (needles haystack : list oproxy) (size_needles size_haystack : nat)
    (condition : list mop) (filter : list mfilter) (opts : mopts) (tls : truelengths)
    : res (list Z * list Z * list mwarning) :=
  let n_cols := length needles in
  let! ops := parse_by_col condition n_cols "`condition` must be length 1, or the same length as the number of columns of the input."%string in
  let! filters := parse_by_col filter n_cols "`filter` must be length 1, or the same length as the number of columns of the input."%string in
  if n_cols =? 0 then Err "Must have at least 1 column to match on." else
  let! needles_complete := df_detect_complete_by_col needles in
  let! haystack_complete := df_detect_complete_by_col haystack in
  let! (needles, haystack) := df_joint_xtfrm_by_col fuel needles haystack size_needles size_haystack (o_nan_distinct opts) tls in
  df_locate_matches fuel needles haystack needles_complete haystack_complete size_needles size_haystack opts filters ops tls.
