(** * Model: ordering strings by appearance (src/order.c)

    Used instead of the ordering of strings by bytes when [chr_ordered] is
    [false].  A string is named by its CHARSXP; as in [M_OrderChr] the name
    is a [list Z], the missing string being one name among the others (say
    [[-1]]).  The arguments [decreasing] and [na_last] and the buffers that
    the code passes on but never looks at are left out. *)
From Verif Require Import Base M_Order M_OrderChr.

(** src/order.c:3663-3734 [chr_appearance_counting], first loop
    (3670-3693): each string seen gets minus its number of occurrences as
    truelength. *)
Definition chr_appearance_count (p_x : list (list Z)) (tls : truelengths) (ti : tl_info) : res (truelengths * tl_info) :=
  for_ 0 (length p_x) (fun j '((tls, ti) : truelengths * tl_info) =>
    let! elt := rd p_x j in
    let truelength := tls elt in
    if (truelength <? 0)%Z then Ok (set_truelength tls elt (truelength - 1)%Z, ti)
    else
      let! ti := if (0 <? truelength)%Z then truelength_save_string elt truelength ti else Ok ti in
      let! ti := truelength_save_unique elt ti in
      Ok (set_truelength tls elt (-1)%Z, ti)) (tls, ti).

(** src/order.c:3695-3709, second loop: group sizes and start locations. *)
Definition chr_appearance_starts (ti : tl_info) (tls : truelengths) (g : group_infos)
    : res (truelengths * group_infos * Z) :=
  for_ 0 (ti_n_uniques ti) (fun j '((tls, g, cumulative) : truelengths * group_infos * Z) =>
    let! elt := rd (ti_uniques ti) j in
    let group_size := (- tls elt)%Z in
    let! g := groups_size_maybe_push (Z.to_nat group_size) g in
    Ok (set_truelength tls elt cumulative, g, (cumulative + group_size)%Z)) (tls, g, 0%Z).

(** src/order.c:3714-3722 and 3724-3730, third loop: writes
    [value i] for row [i] to the next free place of its group.  A negative
    index is undefined behaviour. *)
Definition chr_appearance_place (p_x : list (list Z)) (value : nat -> res Z) (dst : list Z) (tls : truelengths)
    : res (list Z * truelengths) :=
  for_ 0 (length p_x) (fun j '((dst, tls) : list Z * truelengths) =>
    let! elt := rd p_x j in
    let loc := tls elt in
    let tls := set_truelength tls elt (loc + 1)%Z in
    let! v := value j in
    let! dst := wrZ dst loc v in
    Ok (dst, tls)) (dst, tls).

(** src/order.c:3663-3734.  [p_o_aux] is what [init_lazy_raw()] allocated
    (only used if [initialized]). *)
Definition chr_appearance_counting (p_x : list (list Z)) (initialized : bool) (p_o p_o_aux : list Z)
    (g : group_infos) (tls : truelengths) (ti : tl_info)
    : res (list Z * list Z * group_infos * truelengths * tl_info) :=
  let! (tls, ti) := chr_appearance_count p_x tls ti in
  let! (tls, g, _) := chr_appearance_starts ti tls g in
  let! (p_o, p_o_aux, tls) :=
    if initialized then
      let! (p_o_aux, tls) := chr_appearance_place p_x (fun i => rd p_o i) p_o_aux tls in
      Ok (take (length p_x) p_o_aux ++ drop (length p_x) p_o, p_o_aux, tls)
    else
      let! (p_o, tls) := chr_appearance_place p_x (fun i => Ok (Z.of_nat i + 1)%Z) p_o tls in
      Ok (p_o, p_o_aux, tls) in
  let! (tls, ti) := truelength_reset tls ti in
  Ok (p_o, p_o_aux, g, tls, ti).

(** src/order.c:3482-3507 [chr_appearance_chunk] *)
Definition chr_appearance_chunk (p_x_chunk : list (list Z)) (p_o p_o_aux : list Z) (g : group_infos) (tls : truelengths)
    (ti : tl_info) : res (list Z * list Z * group_infos * truelengths * tl_info) :=
  chr_appearance_counting p_x_chunk true p_o p_o_aux g tls ti.

(** src/order.c:3540-3577 [chr_appearance], 3592-3611
    [chr_appearance_exec], 3620-3649 [chr_appearance_internal], with the
    reset of 3614-3618 [chr_appearance_cleanup] after the work; that it also runs
    after an error is not represented. *)
Definition chr_appearance (p_x : list (list Z)) (o : order) (g : group_infos) (tls : truelengths) (ti : tl_info)
    : res (order * group_infos * truelengths * tl_info) :=
  let! (p_o, _, g, tls, ti) := chr_appearance_counting p_x false (or_data o) [] g tls ti in
  let! (tls, ti) := truelength_reset tls ti in
  Ok (Order p_o (or_initialized o), g, tls, ti).
