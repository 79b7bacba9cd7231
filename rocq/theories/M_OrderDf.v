(** * Model: ordering, part 3 (src/order.c): data frames and the entry points.

    The ordering proxy is given: a vector of one of the five types, or a data
    frame of such vectors without data frame columns ([vec_proxy_order()]
    flattens them).  Other types raise an error in
    [vec_compute_n_bytes_lazy_raw()] (order.c:4285-4287) before anything is
    ordered.  Strings are already normalised, and transformed by
    [chr_proxy_collate] if there is one.  [chr_ordered] is [true], as in every
    call from C (order.c:206, 243; match.c; match-joint.c; rank.c): ordering by
    appearance is not modelled. *)
From Verif Require Import Base M_Double M_Scalar M_Order M_OrderChr.

Inductive ocol :=
| OLgl (l : list Z) | OInt (l : list Z) | ODbl (l : list dbl)
| OCpl (l : list (dbl * dbl)) | OChr (l : list rstr).
Definition ocol_length (c : ocol) : nat :=
  match c with OLgl l | OInt l => length l | ODbl l => length l | OCpl l => length l | OChr l => length l end.
Inductive oproxy := OVec (c : ocol) | ODf (cols : list ocol) (size : nat).
Definition oproxy_size (p : oproxy) : nat :=
  match p with OVec c => ocol_length c | ODf _ n => n end.

(** src/order.c:673-801 [vec_order_base_switch] *)
Definition vec_order_base_switch (c : ocol) (decreasing na_last nan_distinct : bool) (o : order) (w : work)
    (g : group_infos) (tls : truelengths) (ti : tl_info)
    : res (order * work * group_infos * truelengths * tl_info) :=
  match c with
  | OInt l | OLgl l =>
      let! (o, w, g) := int_order l decreasing na_last o w g in Ok (o, w, g, tls, ti)
  | ODbl l =>
      let! (o, w, g) := dbl_order_impl l decreasing na_last nan_distinct o w g in Ok (o, w, g, tls, ti)
  | OCpl l =>
      let! (o, w, g) := cpl_order l decreasing na_last nan_distinct o w g in Ok (o, w, g, tls, ti)
  | OChr l => chr_order l decreasing na_last o w g tls ti
  end.

(** The body of the loop over groups, src/order.c:4064-4101: extract the
    chunk, order it ([vec_order_chunk_switch], 4130-4245).  [i] is the index of
    the column, which the first pass of a complex column decrements
    (line 3910). *)
Definition df_chunk (c : ocol) (decreasing na_last nan_distinct rerun_complex : bool) (tls : truelengths)
    (_ : nat) (p_o : list Z) (i : Z) (w : work) (g : group_infos)
    : res (list Z * Z * work * group_infos) :=
  match c with
  | OInt l | OLgl l =>
      let! x := extract_chunk l p_o in
      let! (p_o, w, g) := int_order_chunk decreasing na_last x p_o w g in Ok (p_o, i, w, g)
  | ODbl l =>
      let! x := extract_chunk l p_o in
      let! (p_o, w, g) := dbl_order_chunk_impl decreasing na_last nan_distinct x p_o w g in Ok (p_o, i, w, g)
  | OCpl l =>
      let! x := extract_chunk l p_o in
      let '(x, i) :=
        if rerun_complex then (map (fun z => (cpl_normalise_missing z).1) x, i - 1)%Z
        else (map (fun z => (cpl_normalise_missing z).2) x, i) in
      let! (p_o, w, g) := dbl_order_chunk_impl decreasing na_last nan_distinct x p_o w g in Ok (p_o, i, w, g)
  | OChr l =>
      let! x := extract_chunk l p_o in
      let! (p_o, w, g) := chr_order_chunk decreasing na_last x p_o tls w g in Ok (p_o, i, w, g)
  end.

Definition is_cpl (c : ocol) : bool := match c with OCpl _ => true | _ => false end.

Section df_order.
  Context (cols : list ocol) (p_decreasing p_na_last : list bool) (nan_distinct : bool).
  Let n_cols := length cols.
  Let recycle_decreasing := length p_decreasing =? 1.
  Let recycle_na_last := length p_na_last =? 1.

  (** The state of the loop, src/order.c:4005-4111 *)
  Record df_state := DfState {
    ds_i : Z; ds_rerun : bool; ds_decreasing : bool; ds_na_last : bool;
    ds_o : order; ds_w : work; ds_g : group_infos; ds_tls : truelengths; ds_ti : tl_info }.

  (** One iteration, src/order.c:4014-4110, followed by [++i] *)
  Definition df_step (s : df_state) : res df_state :=
    let i := ds_i s in
    let pre := groups_current (ds_g s) in
    let n_groups := gi_n_groups pre in
    let! col_decreasing := if recycle_decreasing then Ok (ds_decreasing s) else rdZ p_decreasing i in
    let! col_na_last := if recycle_na_last then Ok (ds_na_last s) else rdZ p_na_last i in
    let! col := rdZ cols i in
    let rerun_complex := if is_cpl col then negb (ds_rerun s) else ds_rerun s in
    let! (tls, ti, w) :=
      match col with
      | OChr l => chr_mark_sorted_uniques l (ds_w s) (ds_tls s) (ds_ti s)
      | _ => Ok (ds_tls s, ds_ti s, ds_w s)
      end in
    let g := if (i =? Z.of_nat n_cols - 1)%Z && negb (g_force_groups (ds_g s)) && negb rerun_complex
             then groups_set_ignore (ds_g s) true else ds_g s in
    let g := groups_swap g in
    let! (p_o, i, w, g) :=
      groups_loop (df_chunk col col_decreasing col_na_last nan_distinct rerun_complex tls)
        (gi_data pre) n_groups (or_data (ds_o s)) i w g in
    let! (tls, ti) := match col with OChr _ => truelength_reset tls ti | _ => Ok (tls, ti) end in
    Ok (DfState (i + 1) rerun_complex col_decreasing col_na_last
          (Order p_o (or_initialized (ds_o s))) w g tls ti).

  (** The loop.  Because the index can decrease, nothing bounds the number of
      iterations; [fuel] does in the model. *)
  Fixpoint df_loop (fuel : nat) (s : df_state) : res df_state :=
    if (ds_i s <? Z.of_nat n_cols)%Z then
      if gi_n_groups (groups_current (ds_g s)) =? length (or_data (ds_o s)) then Ok s
      else match fuel with
           | O => UB "out of fuel"
           | S fuel => let! s := df_step s in df_loop fuel s
           end
    else Ok s.

  (** src/order.c:3920-4119 [df_order_internal]; [size] is
      [length (or_data o)] *)
  Definition df_order_internal (fuel : nat) (o : order) (w : work) (g : group_infos) (tls : truelengths)
      (ti : tl_info) : res (order * work * group_infos * truelengths * tl_info) :=
    let size := length (or_data o) in
    if negb recycle_decreasing && negb (length p_decreasing =? n_cols)
    then Err "`vec_order_expand_args()` should expand `decreasing`"
    else if negb recycle_na_last && negb (length p_na_last =? n_cols)
    then Err "`vec_order_expand_args()` should expand `na_last`"
    else if n_cols =? 0 then
      let! o := init_order o in
      let! g := if negb (size =? 0) then groups_size_maybe_push size g else Ok g in
      Ok (o, w, g, tls, ti)
    else
      let! col := rd cols 0 in
      let! col_decreasing := rd p_decreasing 0 in
      let! col_na_last := rd p_na_last 0 in
      let! (o, w, g, tls, ti) := vec_order_base_switch col col_decreasing col_na_last nan_distinct o w g tls ti in
      let! s := df_loop fuel (DfState 1 false col_decreasing col_na_last o w g tls ti) in
      Ok (ds_o s, ds_w s, ds_g s, ds_tls s, ds_ti s).

  (** src/order.c:3780-3868 [df_order]: the cleanup resets the truelengths. *)
  Definition df_order (fuel : nat) (o : order) (w : work) (g : group_infos) (tls : truelengths)
      (ti : tl_info) : res (order * work * group_infos * truelengths * tl_info) :=
    let! (o, w, g, tls, ti) := df_order_internal fuel o w g tls ti in
    let! (tls, ti) := truelength_reset tls ti in
    Ok (o, w, g, tls, ti).
End df_order.

(** src/order.c:519-592 [vec_order_switch] *)
Definition vec_order_switch (fuel : nat) (p : oproxy) (decreasing na_last : list bool) (nan_distinct : bool)
    (o : order) (w : work) (g : group_infos) (tls : truelengths) (ti : tl_info)
    : res (order * work * group_infos * truelengths * tl_info) :=
  match p with
  | ODf cols _ => df_order cols decreasing na_last nan_distinct fuel o w g tls ti
  | OVec c =>
      if negb (length decreasing =? 1) then Err "Size of decreasing != 1"
      else if negb (length na_last =? 1) then Err "Size of na_last != 1"
      else
        let! d := rd decreasing 0 in
        let! l := rd na_last 0 in
        vec_order_base_switch c d l nan_distinct o w g tls ti
  end.

(** src/order.c:4320-4357 *)
Definition col_n_counts (c : ocol) : nat :=
  match c with OInt _ | OLgl _ | OChr _ => INT_MAX_RADIX_PASS | ODbl _ | OCpl _ => DBL_MAX_RADIX_PASS end.
Definition vec_compute_n_bytes_lazy_counts (p : oproxy) : nat :=
  match p with
  | OVec c => col_n_counts c
  | ODf cols _ => fold_left (fun m c => if m <? col_n_counts c then col_n_counts c else m) cols 0
  end.

(** What [x] is before [vec_proxy_order()]: a data frame, each column with the
    number of columns it takes in the flattened proxy
    ([vec_decreasing_expansion()], order.c:4519-4565), or not. *)
Inductive ox := XVec | XDf (expansions : list nat).

(** src/order.c:4492-4518 [expand_arg] *)
Definition expand_arg (arg : list bool) (expansions : list nat) : list bool :=
  if length arg =? 1 then arg
  else concat (zip_with (fun a k => replicate k a) arg expansions).

(** src/order.c:4385-4491 [vec_order_expand_args], [df_expand_args] *)
Definition vec_order_expand_args (x : ox) (decreasing na_largest : list bool) : res (list bool * list bool) :=
  match x with
  | XVec =>
      if negb (length decreasing =? 1)
      then Err "`direction` must be a single value when `x` is not a data frame."
      else if negb (length na_largest =? 1)
      then Err "`na_value` must be a single value when `x` is not a data frame."
      else Ok (decreasing, na_largest)
  | XDf expansions =>
      let n_cols := length expansions in
      if (length decreasing =? 1) && (length na_largest =? 1) then Ok (decreasing, na_largest)
      else if negb (length decreasing =? 1) && negb (length decreasing =? n_cols)
      then Err "`direction` should have length 1 or length equal to the number of columns of `x` when `x` is a data frame."
      else if negb (length na_largest =? 1) && negb (length na_largest =? n_cols)
      then Err "`na_value` should have length 1 or length equal to the number of columns of `x` when `x` is a data frame."
      else if forallb (fun e => e =? 1) expansions then Ok (decreasing, na_largest)
      else Ok (expand_arg decreasing expansions, expand_arg na_largest expansions)
  end.

(** [vec_check_size_common()] and [vec_check_recycle_common()] on the two flag
    vectors (order.c:377-378; the general functions are modelled in
    M_Rep.v). *)
Definition recycle_flags (a b : list bool) : res (list bool * list bool) :=
  if length a =? length b then Ok (a, b)
  else if length a =? 1 then
    let! x := rd a 0 in Ok (replicate (length b) x, b)
  else if length b =? 1 then
    let! x := rd b 0 in Ok (a, replicate (length a) x)
  else Err "Can't recycle".

(** src/order.c:4580-4601 [vec_order_compute_na_last]; the sizes agree after
    recycling. *)
Definition vec_order_compute_na_last (na_largest decreasing : list bool) : list bool :=
  zip_with (fun l d : bool => if d then negb l else l) na_largest decreasing.

(** src/order.c:362-484 [vec_order_info_impl].  Returns the order, the group
    sizes (if requested) and the truelengths at exit. *)
Definition vec_order_info_impl (fuel : nat) (x : ox) (p : oproxy) (decreasing na_largest : list bool)
    (nan_distinct group_sizes : bool) (tls : truelengths)
    : res (list Z * option (list nat) * truelengths) :=
  let! (decreasing, na_largest) := vec_order_expand_args x decreasing na_largest in
  let! (decreasing, na_largest) := recycle_flags decreasing na_largest in
  let na_last := vec_order_compute_na_last na_largest decreasing in
  let size := oproxy_size p in
  let counts := UINT8_MAX_SIZE * vec_compute_n_bytes_lazy_counts p in
  let w := Work (RMem (replicate size 0%Z) (replicate size 0%Z) (replicate size 0%Z) (replicate counts 0))
             (replicate (Z.to_nat (INT_ORDER_COUNTING_RANGE_BOUNDARY + 1)) 0) in
  let force_groups := group_sizes in
  let ignore_groups := if force_groups then false
                       else match p with ODf _ _ => false | OVec _ => true end in
  let g := new_group_infos size force_groups ignore_groups in
  let! (o, _, g, tls, _) :=
    vec_order_switch fuel p decreasing na_last nan_distinct (new_order size) w g tls (new_truelength_info size) in
  let sizes := if group_sizes
               then let i := groups_current g in Some (take (gi_n_groups i) (gi_data i))
               else None in
  Ok (or_data o, sizes, tls).

(** src/order.c:201-210, 315-324 *)
Definition vec_order (fuel : nat) (x : ox) (p : oproxy) (decreasing na_largest : list bool) (nan_distinct : bool)
    (tls : truelengths) : res (list Z) :=
  let! (o, _, _) := vec_order_info_impl fuel x p decreasing na_largest nan_distinct false tls in Ok o.
Definition vec_order_info (fuel : nat) (x : ox) (p : oproxy) (decreasing na_largest : list bool)
    (nan_distinct : bool) (tls : truelengths) : res (list Z * list nat) :=
  let! (o, sizes, _) := vec_order_info_impl fuel x p decreasing na_largest nan_distinct true tls in
  Ok (o, default [] sizes).

(** src/order.c:237-303 [vec_locate_sorted_groups]: returns [key_loc] and
    [loc]; the keys are [vec_slice(x, key_loc)]. *)
Definition vec_locate_sorted_groups (fuel : nat) (x : ox) (p : oproxy) (decreasing na_largest : list bool)
    (nan_distinct : bool) (tls : truelengths) : res (list Z * list (list Z)) :=
  let! (o, sizes) := vec_order_info fuel x p decreasing na_largest nan_distinct tls in
  let n_groups := length sizes in
  let! (key_loc, loc, _) :=
    for_ 0 n_groups (fun i '((key_loc, loc, start) : list Z * list (list Z) * nat) =>
      let! k := rd o start in
      let! key_loc := wr key_loc i k in
      let! size := rd sizes i in
      let! (elt, start) :=
        for_ 0 size (fun j '((elt, start) : list Z * nat) =>
          let! v := rd o start in
          let! elt := wr elt j v in
          Ok (elt, S start)) (replicate size 0%Z, start) in
      let! loc := wr loc i elt in
      Ok (key_loc, loc, start)) (replicate n_groups 0%Z, replicate n_groups [], 0) in
  Ok (key_loc, loc).
