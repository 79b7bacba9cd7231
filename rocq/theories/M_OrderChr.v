(** * Model: ordering, part 2 (src/order.c, src/order-truelength.c,
      src/type-complex.h): complex and character vectors.

    Conventions as in M_Order.v, and:
    - A CHARSXP other than NA_STRING is its list of bytes: the strings of a
      normalised character vector are in R's global cache, so two of them are
      the same CHARSXP exactly when they have the same bytes.
    - The TRUELENGTH fields of all CHARSXPs are a function [tls] from strings to
      integers; [SET_TRUELENGTH] updates it. *)
From Verif Require Import Base M_Double M_Scalar M_Order.

(** ** Complex vectors *)

(** [R_NaN]: the quiet NaN; only its class matters. *)
Definition R_NaN_bits : dbl := 9221120237041090560%Z.

(** src/type-complex.h:15-43 *)
Definition cpl_normalise_missing (x : dbl * dbl) : dbl * dbl :=
  match dbl_classify x.1 with
  | DblNumber =>
      match dbl_classify x.2 with
      | DblNumber => x
      | DblMissing => (NA_REAL, NA_REAL)
      | DblNan => (R_NaN_bits, R_NaN_bits)
      end
  | DblMissing =>
      match dbl_classify x.2 with
      | DblNumber => (NA_REAL, NA_REAL)
      | DblMissing => x
      | DblNan => x
      end
  | DblNan =>
      match dbl_classify x.2 with
      | DblNumber => (R_NaN_bits, R_NaN_bits)
      | DblMissing => x
      | DblNan => x
      end
  end.

(** [p_col[p_o[j] - 1]] for each [j] (order.c:2730-2733, 3890-3893) *)
Fixpoint extract_chunk {A} (p_col : list A) (p_o : list Z) : res (list A) :=
  match p_o with
  | [] => Ok []
  | loc :: p_o =>
      let! x := rdZ p_col (loc - 1)%Z in
      let! xs := extract_chunk p_col p_o in
      Ok (x :: xs)
  end.

(** A loop over the groups of the previous column (order.c:2736-2762,
    4053-4102): groups of size 1 are only pushed, the others are handed to
    [chunk], which gets the part of the order of that group.  [pos] is the
    offset of [p_o]; [f_st] is state threaded through the chunks. *)
Section groups_loop.
  Context {S : Type} (chunk : nat -> list Z -> S -> work -> group_infos ->
                              res (list Z * S * work * group_infos)).
  Definition groups_loop (sizes : list nat) (n_groups : nat) (p_o : list Z) (s : S) (w : work) (g : group_infos)
      : res (list Z * S * work * group_infos) :=
    let! (p_o, s, w, g, _) :=
      for_ 0 n_groups (fun group '((p_o, s, w, g, pos) : list Z * S * work * group_infos * nat) =>
        let! group_size := rd sizes group in
        if group_size =? 1 then
          let! g := groups_size_maybe_push 1 g in
          Ok (p_o, s, w, g, pos + 1)
        else if length p_o <? pos + group_size then UB "group past the end of the order"
        else
          let! (sub_o, s, w, g) := chunk pos (seg p_o pos group_size) s w g in
          Ok (put_seg p_o pos sub_o, s, w, g, pos + group_size))
        (p_o, s, w, g, 0) in
    Ok (p_o, s, w, g).
End groups_loop.

(** src/order.c:2647-2766 [cpl_order] *)
Definition cpl_order (p_x : list (dbl * dbl)) (decreasing na_last nan_distinct : bool) (o : order) (w : work)
    (g : group_infos) : res (order * work * group_infos) :=
  let reset_ignore_groups := g_ignore_groups g in
  let g := if reset_ignore_groups then groups_set_ignore g false else g in
  let p_x_chunk := map (fun z => (cpl_normalise_missing z).1) p_x in
  let! (o, w, g) := dbl_order_impl p_x_chunk decreasing na_last nan_distinct o w g in
  let g := if reset_ignore_groups then groups_set_ignore g true else g in
  let pre := groups_current g in
  let n_groups := gi_n_groups pre in
  if n_groups =? length p_x then Ok (o, w, g)
  else
    let g := groups_swap g in
    let! zs := extract_chunk p_x (or_data o) in
    let p_x_chunk := map (fun z => (cpl_normalise_missing z).2) zs in
    let! (p_o, _, w, g) :=
      groups_loop (fun pos p_o (_ : unit) w g =>
        let! (p_o, w, g) :=
          dbl_order_chunk_impl decreasing na_last nan_distinct (seg p_x_chunk pos (length p_o)) p_o w g in
        Ok (p_o, tt, w, g))
        (gi_data pre) n_groups (or_data o) tt w g in
    Ok (Order p_o (or_initialized o), w, g).

(** ** Truelengths, src/order-truelength.h, src/order-truelength.c *)
Notation str := (list Z) (only parsing).
Definition truelengths := str -> Z.
Definition set_truelength (tls : truelengths) (s : str) (v : Z) : truelengths :=
  fun s' => if bool_decide (s' = s) then v else tls s'.

(** src/order-truelength.h:64-105.  The lengths of the arrays are
    [n_strings_alloc], [n_uniques_alloc] and [n_sizes_alloc]. *)
Record tl_info := TLI {
  ti_strings : list str; ti_truelengths : list Z; ti_n_strings : nat;
  ti_uniques : list str; ti_n_uniques : nat;
  ti_sizes : list nat; ti_sizes_aux : list nat; ti_n_sizes : nat;
  ti_max_string_size : nat; ti_n_max : nat }.

(** src/order-truelength.c:22-49 *)
Definition new_truelength_info (n_max : nat) : tl_info := TLI [] [] 0 [] 0 [] [] 0 0 n_max.

(** src/order-truelength.h:24 *)
Definition TRUELENGTH_SIZE_ALLOC_DEFAULT : Z := 10000%Z.
(** src/order-truelength.c:170-191 *)
Definition truelength_realloc_size (n_x n_max : Z) : Z :=
  if (n_x =? 0)%Z then
    if (TRUELENGTH_SIZE_ALLOC_DEFAULT <? n_max)%Z then TRUELENGTH_SIZE_ALLOC_DEFAULT else n_max
  else
    let n_new := u64 (n_x * 2) in
    if (n_max <? n_new)%Z then n_max else n_new.
Definition realloc_size (n_x n_max : nat) : nat :=
  Z.to_nat (truelength_realloc_size (Z.of_nat n_x) (Z.of_nat n_max)).

(** src/order-truelength.h:118-129, 134-143, 145-154; new cells are
    uninitialised in C ([chr_resize] etc.) and written before being read. *)
Definition truelength_save_string (s : str) (tl : Z) (i : tl_info) : res tl_info :=
  let n := ti_n_strings i in
  let '(strings, truelengths) :=
    if n =? length (ti_strings i)
    then let size := realloc_size (length (ti_strings i)) (ti_n_max i) in
         (resize size [] (ti_strings i), resize size 0%Z (ti_truelengths i))
    else (ti_strings i, ti_truelengths i) in
  let! strings := wr strings n s in
  let! truelengths := wr truelengths n tl in
  Ok (TLI strings truelengths (S n) (ti_uniques i) (ti_n_uniques i) (ti_sizes i) (ti_sizes_aux i)
        (ti_n_sizes i) (ti_max_string_size i) (ti_n_max i)).
Definition truelength_save_unique (s : str) (i : tl_info) : res tl_info :=
  let n := ti_n_uniques i in
  let uniques :=
    if n =? length (ti_uniques i)
    then resize (realloc_size (length (ti_uniques i)) (ti_n_max i)) [] (ti_uniques i) else ti_uniques i in
  let! uniques := wr uniques n s in
  Ok (TLI (ti_strings i) (ti_truelengths i) (ti_n_strings i) uniques (S n) (ti_sizes i) (ti_sizes_aux i)
        (ti_n_sizes i) (ti_max_string_size i) (ti_n_max i)).
Definition truelength_save_size (size : nat) (i : tl_info) : res tl_info :=
  let n := ti_n_sizes i in
  let '(sizes, sizes_aux) :=
    if n =? length (ti_sizes i)
    then let new := realloc_size (length (ti_sizes i)) (ti_n_max i) in
         (resize new 0 (ti_sizes i), resize new 0 (ti_sizes_aux i))
    else (ti_sizes i, ti_sizes_aux i) in
  let! sizes := wr sizes n size in
  Ok (TLI (ti_strings i) (ti_truelengths i) (ti_n_strings i) (ti_uniques i) (ti_n_uniques i) sizes sizes_aux
        (S n) (ti_max_string_size i) (ti_n_max i)).

(** src/order-truelength.c:56-83 *)
Definition truelength_reset (tls : truelengths) (i : tl_info) : res (truelengths * tl_info) :=
  let! tls := for_ 0 (ti_n_uniques i) (fun j tls =>
    let! u := rd (ti_uniques i) j in
    Ok (set_truelength tls u 0%Z)) tls in
  let! tls := for_ 0 (ti_n_strings i) (fun j tls =>
    let! s := rd (ti_strings i) j in
    let! tl := rd (ti_truelengths i) j in
    Ok (set_truelength tls s tl)) tls in
  Ok (tls, TLI (ti_strings i) (ti_truelengths i) 0 (ti_uniques i) 0 (ti_sizes i) (ti_sizes_aux i) 0 0 (ti_n_max i)).

(** ** Sorting the unique strings *)

(** src/order.c:3124-3164 [chr_mark_uniques] *)
Definition chr_mark_uniques (p_x : list rstr) (tls : truelengths) (i : tl_info) : res (truelengths * tl_info) :=
  for_ 0 (length p_x) (fun j '((tls, i) : truelengths * tl_info) =>
    let! elt := rd p_x j in
    match elt with
    | None => Ok (tls, i)
    | Some elt =>
        let truelength := tls elt in
        if (truelength <? 0)%Z then Ok (tls, i)
        else
          let! i := if (0 <? truelength)%Z then truelength_save_string elt truelength i else Ok i in
          let elt_size := length elt in
          let i := if ti_max_string_size i <? elt_size
                   then TLI (ti_strings i) (ti_truelengths i) (ti_n_strings i) (ti_uniques i) (ti_n_uniques i)
                          (ti_sizes i) (ti_sizes_aux i) (ti_n_sizes i) elt_size (ti_n_max i)
                   else i in
          let! i := truelength_save_unique elt i in
          let! i := truelength_save_size elt_size i in
          Ok (set_truelength tls elt (-1)%Z, i)
    end) (tls, i).

(** [strcmp(CHAR(x) + n, CHAR(y) + n)]: the pointers must not be past the
    terminating NUL. *)
Definition strcmp_from (n : nat) (x y : str) : res Z :=
  if (length x <? n) || (length y <? n) then UB "strcmp past the end of a string"
  else Ok (c_strcmp (drop n x) (drop n y)).
(** src/order.c:3439-3469 *)
Definition chr_str_ge (x y : str) (x_size pass : nat) : res bool :=
  if pass =? 0 then
    let! cmp := strcmp_from 0 x y in Ok (0 <=? cmp)%Z
  else
    let last_pass := pass - 1 in
    if x_size <? last_pass + 1 then Ok true
    else let! cmp := strcmp_from last_pass x y in Ok (0 <=? cmp)%Z.

(** src/order.c:3195-3210, the [while] loop; [k] is [j + 1] *)
Fixpoint chr_insertion_while (x_elt : str) (x_size pass k : nat) (p_x : list str) (p_sizes : list nat)
    : res (nat * list str * list nat) :=
  match k with
  | O => Ok (0, p_x, p_sizes)
  | S j =>
      let! x_cmp_elt := rd p_x j in
      let! ge := chr_str_ge x_elt x_cmp_elt x_size pass in
      if ge then Ok (k, p_x, p_sizes)
      else
        let! x_cmp_size := rd p_sizes j in
        let! p_x := wr p_x (j + 1) x_cmp_elt in
        let! p_sizes := wr p_sizes (j + 1) x_cmp_size in
        chr_insertion_while x_elt x_size pass j p_x p_sizes
  end.
(** src/order.c:3179-3217 [chr_order_insertion] *)
Definition chr_order_insertion (pass : nat) (p_x : list str) (p_sizes : list nat)
    : res (list str * list nat) :=
  if length p_x =? 0 then Ok (p_x, p_sizes)
  else
    for_ 1 (length p_x - 1) (fun i '((p_x, p_sizes) : list str * list nat) =>
      let! x_elt := rd p_x i in
      let! x_size := rd p_sizes i in
      let! (j1, p_x, p_sizes) := chr_insertion_while x_elt x_size pass i p_x p_sizes in
      let! p_x := wr p_x j1 x_elt in
      let! p_sizes := wr p_sizes j1 x_size in
      Ok (p_x, p_sizes)) (p_x, p_sizes).

(** Working memory: [p_x_aux] (as [SEXP*]), [p_sizes_aux] and [p_bytes] *)
Record chr_mem := CMem { cm_x_aux : list str; cm_sizes_aux : list nat; cm_bytes : list Z }.

(** src/order.c:3311-3330: histogram; [(uint8_t)] keeps the byte *)
Definition chr_histogram (pass : nat) (p_x : list str) (p_sizes : list nat) (mem : chr_mem)
    : res (Z * list Z * list nat) :=
  for_ 0 (length p_x) (fun i '((_, bytes, counts) : Z * list Z * list nat) =>
    let! x_elt_size := rd p_sizes i in
    let! byte :=
      if pass <? x_elt_size then
        let! x_elt := rd p_x i in
        let! c := rd x_elt pass in
        Ok (c mod 256)%Z
      else Ok 0%Z in
    let! bytes := wr bytes i byte in
    let! counts := bump counts byte in
    Ok (byte, bytes, counts)) (0%Z, cm_bytes mem, replicate UINT8_MAX_SIZE 0).

(** src/order.c:3374-3379 *)
Definition chr_place (p_x : list str) (p_sizes : list nat) (counts : list nat) (mem : chr_mem)
    : res (chr_mem * list nat) :=
  for_ 0 (length p_x) (fun i '((mem, counts) : chr_mem * list nat) =>
    let! byte := rd (cm_bytes mem) i in
    let! loc := rdZ counts byte in
    let! counts := wrZ counts byte (S loc) in
    let! x := rd p_x i in
    let! x_aux := wr (cm_x_aux mem) loc x in
    let! sz := rd p_sizes i in
    let! sizes_aux := wr (cm_sizes_aux mem) loc sz in
    Ok (CMem x_aux sizes_aux (cm_bytes mem), counts)) (mem, counts).

(** src/order.c:3288-3425 [chr_order_radix_recurse].  [fuel] bounds the depth:
    [pass] increases at each call and stays below [max_size]. *)
Fixpoint chr_order_radix_recurse (fuel pass max_size : nat) (p_x : list str) (p_sizes : list nat)
    (mem : chr_mem) {struct fuel} : res (list str * list nat * chr_mem) :=
  match fuel with
  | O => UB "out of fuel"
  | S fuel =>
      let size := length p_x in
      if size <=? ORDER_INSERTION_BOUNDARY then
        let! (p_x, p_sizes) := chr_order_insertion pass p_x p_sizes in
        Ok (p_x, p_sizes, mem)
      else
        let next_pass := pass + 1 in
        let! (byte, bytes, counts) := chr_histogram pass p_x p_sizes mem in
        let mem := CMem (cm_x_aux mem) (cm_sizes_aux mem) bytes in
        let! cbyte := rdZ counts byte in
        if cbyte =? size then
          if negb (next_pass =? max_size)
          then chr_order_radix_recurse fuel next_pass max_size p_x p_sizes mem
          else Ok (p_x, p_sizes, mem)
        else
          let! (counts, _) := radix_accumulate 0 counts in
          let! (mem, counts) := chr_place p_x p_sizes counts mem in
          let p_x := take size (cm_x_aux mem) in
          let p_sizes := take size (cm_sizes_aux mem) in
          let! (p_x, p_sizes, mem, _) :=
            for_brk 0 UINT8_MAX_SIZE (fun i '((p_x, p_sizes, mem, last) : list str * list nat * chr_mem * nat) =>
              if size <=? last then Ok (Break (p_x, p_sizes, mem, last))
              else
                let! cumulative_count := rd counts i in
                if cumulative_count =? 0 then Ok (Next (p_x, p_sizes, mem, last))
                else
                  let group_size := cumulative_count - last in
                  if group_size =? 1 then Ok (Next (p_x, p_sizes, mem, cumulative_count))
                  else if next_pass =? max_size then Ok (Next (p_x, p_sizes, mem, cumulative_count))
                  else
                    let! (sub_x, sub_sizes, mem) :=
                      chr_order_radix_recurse fuel next_pass max_size (seg p_x last group_size)
                        (seg p_sizes last group_size) mem in
                    Ok (Next (put_seg p_x last sub_x, put_seg p_sizes last sub_sizes, mem, cumulative_count)))
              (p_x, p_sizes, mem, 0) in
          Ok (p_x, p_sizes, mem)
  end.

(** src/order.c:3243-3263 [chr_order_radix] *)
Definition chr_order_radix (max_size : nat) (p_x : list str) (p_sizes : list nat) (mem : chr_mem)
    : res (list str * list nat * chr_mem) :=
  chr_order_radix_recurse (S max_size) 0 max_size p_x p_sizes mem.

(** src/order.c:3090-3122 [chr_mark_sorted_uniques].  The memory [p_x_aux] of
    [size] [SEXP]s holds no strings before (its content is always written
    before it is read), so it starts out fresh. *)
Definition chr_mark_sorted_uniques (p_x : list rstr) (w : work) (tls : truelengths) (i : tl_info)
    : res (truelengths * tl_info * work) :=
  let! (tls, i) := chr_mark_uniques p_x tls i in
  let n_uniques := ti_n_uniques i in
  let mem := CMem (replicate (length p_x) []) (ti_sizes_aux i) (rm_bytes (w_radix w)) in
  if (length (ti_uniques i) <? n_uniques) || (length (ti_sizes i) <? n_uniques)
  then UB "uniques past the allocation"
  else
    let! (sorted, sizes, mem) :=
      chr_order_radix (ti_max_string_size i) (take n_uniques (ti_uniques i)) (take n_uniques (ti_sizes i)) mem in
    let uniques := sorted ++ drop n_uniques (ti_uniques i) in
    let! tls := for_ 0 n_uniques (fun j tls =>
      let! elt := rd uniques j in
      Ok (set_truelength tls elt (- Z.of_nat j - 1)%Z)) tls in
    let i := TLI (ti_strings i) (ti_truelengths i) (ti_n_strings i) uniques (ti_n_uniques i)
               (sizes ++ drop n_uniques (ti_sizes i)) (cm_sizes_aux mem) (ti_n_sizes i)
               (ti_max_string_size i) (ti_n_max i) in
    let r := w_radix w in
    Ok (tls, i, with_radix w (RMem (rm_x_aux r) (rm_o_aux r) (cm_bytes mem) (rm_counts r))).

(** src/order.c:3050-3064 [chr_extract_ordering]; the cast to [int] of a
    value out of range is implementation-defined, here kept as is. *)
Definition chr_extract_ordering (p_x : list rstr) (tls : truelengths) : list Z :=
  map (fun elt => match elt with None => NA_INTEGER | Some s => (- tls s)%Z end) p_x.

(** src/order.c:2809-2859 [chr_order_chunk] *)
Definition chr_order_chunk (decreasing na_last : bool) (p_x : list rstr) (p_o : list Z) (tls : truelengths)
    (w : work) (g : group_infos) : res (list Z * work * group_infos) :=
  let! (s, g) := chr_sortedness p_x decreasing na_last g in
  match s with
  | IsUnsorted => int_order_chunk_impl decreasing na_last (chr_extract_ordering p_x tls) p_o w g
  | _ =>
      let! p_o := ord_resolve_sortedness_chunk s (length p_x) p_o in
      Ok (p_o, w, g)
  end.

(** src/order.c:2972-3042 [chr_order_internal] *)
Definition chr_order_internal (p_x : list rstr) (decreasing na_last : bool) (o : order) (w : work)
    (g : group_infos) (tls : truelengths) (i : tl_info)
    : res (order * work * group_infos * truelengths * tl_info) :=
  let! (s, g) := chr_sortedness p_x decreasing na_last g in
  match s with
  | IsUnsorted =>
      let! (tls, i, w) := chr_mark_sorted_uniques p_x w tls i in
      let! (o, w, g) := int_order_impl (chr_extract_ordering p_x tls) decreasing na_last o w g in
      Ok (o, w, g, tls, i)
  | _ =>
      let! p_o := ord_resolve_sortedness s (length p_x) (or_data o) in
      Ok (Order p_o true, w, g, tls, i)
  end.
(** src/order.c:2890-2970 [chr_order]: the cleanup resets the truelengths
    (also after an error, which the model does not represent). *)
Definition chr_order (p_x : list rstr) (decreasing na_last : bool) (o : order) (w : work)
    (g : group_infos) (tls : truelengths) (i : tl_info)
    : res (order * work * group_infos * truelengths * tl_info) :=
  let! (o, w, g, tls, i) := chr_order_internal p_x decreasing na_last o w g tls i in
  let! (tls, i) := truelength_reset tls i in
  Ok (o, w, g, tls, i).
