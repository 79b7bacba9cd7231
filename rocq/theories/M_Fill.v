(** * Model of src/fill.c

    [r_ssize] locations are [Z]; the [int] stored at [p_loc[i]] is the location
    itself, since vectors have at most INT_MAX rows. *)
From Verif Require Import Base M_Double M_Scalar M_Object M_Proxy M_Slice M_Runs.

(** The loop of src/fill.c:62-67 and 90-95: the first non-missing location, 0 when there is none *)
Definition fill_first (na : list Z) (size : nat) : res Z :=
  for_brk 0 size (fun i loc => let! b := rd na i in if (b =? 0)%Z then Ok (Break (Z.of_nat i)) else Ok (Next loc)) 0%Z.
(** The loop of src/fill.c:135-140 and 163-168: the last non-missing location, [size - 1] when there is none.
    ([i] counts the iterations: the location looked at is [size - 1 - i].) *)
Definition fill_last (na : list Z) (size : nat) : res Z :=
  for_brk 0 size (fun i loc => let! b := rd na (size - 1 - i) in
    if (b =? 0)%Z then Ok (Break (Z.of_nat (size - 1 - i))) else Ok (Next loc)) (Z.of_nat size - 1)%Z.

(** src/fill.c:57-83 [vec_fill_missing_down] *)
Definition vec_fill_missing_down (na : list Z) (size : nat) (leading : bool) (p_loc : list Z) : res (list Z) :=
  let! (loc, p_loc) :=
    if leading then
      let! loc := fill_first na size in
      let! p_loc := for_down 0 (Z.to_nat loc) (fun i p_loc => wr p_loc i (loc + 1)%Z) p_loc in
      Ok (loc, p_loc)
    else Ok (0%Z, p_loc) in
  let! (_, p_loc) :=
    for_ (Z.to_nat loc) (size - Z.to_nat loc) (fun i '(loc, p_loc) =>
      let! b := rd na i in
      let loc := if (b =? 0)%Z then Z.of_nat i else loc in
      let! p_loc := wr p_loc i (loc + 1)%Z in
      Ok (loc, p_loc)) (loc, p_loc) in
  Ok p_loc.

(** The body shared by the back-fill and forward-fill loops with a maximum (src/fill.c:100-107 and 173-180) *)
Definition fill_edge (max_fill loc : Z) (i : nat) (st : Z * list Z) : res (Z * list Z) :=
  let '(n_fill, p_loc) := st in
  if (n_fill =? max_fill)%Z then let! p_loc := wr p_loc i (Z.of_nat i + 1)%Z in Ok (n_fill, p_loc)
  else let! p_loc := wr p_loc i (loc + 1)%Z in Ok (n_fill + 1, p_loc)%Z.
(** The body shared by the main loops with a maximum (src/fill.c:112-127 and 185-200) *)
Definition fill_max_body (na : list Z) (max_fill : Z) (i : nat) (st : Z * Z * list Z) : res (Z * Z * list Z) :=
  let '(loc, n_fill, p_loc) := st in
  let! b := rd na i in
  if (b =? 0)%Z then let! p_loc := wr p_loc i (Z.of_nat i + 1)%Z in Ok (Z.of_nat i, 0, p_loc)%Z
  else if (n_fill =? max_fill)%Z then let! p_loc := wr p_loc i (Z.of_nat i + 1)%Z in Ok (loc, n_fill, p_loc)
  else let! p_loc := wr p_loc i (loc + 1)%Z in Ok (loc, n_fill + 1, p_loc)%Z.

(** src/fill.c:85-128 [vec_fill_missing_down_with_max_fill] *)
Definition vec_fill_missing_down_with_max_fill (na : list Z) (size : nat) (leading : bool) (max_fill : Z) (p_loc : list Z) : res (list Z) :=
  let! (loc, p_loc) :=
    if leading then
      let! loc := fill_first na size in
      let! (_, p_loc) := for_down 0 (Z.to_nat loc) (fill_edge max_fill loc) (0%Z, p_loc) in
      Ok (loc, p_loc)
    else Ok (0%Z, p_loc) in
  let! (_, p_loc) := for_ (Z.to_nat loc) (size - Z.to_nat loc) (fill_max_body na max_fill) (loc, 0%Z, p_loc) in
  Ok p_loc.

(** src/fill.c:130-156 [vec_fill_missing_up] *)
Definition vec_fill_missing_up (na : list Z) (size : nat) (leading : bool) (p_loc : list Z) : res (list Z) :=
  let! (loc, p_loc) :=
    if leading then
      let! loc := fill_last na size in
      let! p_loc := for_ (Z.to_nat (loc + 1)) (size - Z.to_nat (loc + 1)) (fun i p_loc => wr p_loc i (loc + 1)%Z) p_loc in
      Ok (loc, p_loc)
    else Ok (Z.of_nat size - 1, p_loc)%Z in
  let! (_, p_loc) :=
    for_down 0 (Z.to_nat (loc + 1)) (fun i '(loc, p_loc) =>
      let! b := rd na i in
      let loc := if (b =? 0)%Z then Z.of_nat i else loc in
      let! p_loc := wr p_loc i (loc + 1)%Z in
      Ok (loc, p_loc)) (loc, p_loc) in
  Ok p_loc.

(** src/fill.c:158-201 [vec_fill_missing_up_with_max_fill] *)
Definition vec_fill_missing_up_with_max_fill (na : list Z) (size : nat) (leading : bool) (max_fill : Z) (p_loc : list Z) : res (list Z) :=
  let! (loc, p_loc) :=
    if leading then
      let! loc := fill_last na size in
      let! (_, p_loc) := for_ (Z.to_nat (loc + 1)) (size - Z.to_nat (loc + 1)) (fill_edge max_fill loc) (0%Z, p_loc) in
      Ok (loc, p_loc)
    else Ok (Z.of_nat size - 1, p_loc)%Z in
  let! (_, p_loc) := for_down 0 (Z.to_nat (loc + 1)) (fill_max_body na max_fill) (loc, 0%Z, p_loc) in
  Ok p_loc.

Definition INFINITE_FILL : Z := (-1)%Z.
(** src/fill.c:245-265 [parse_max_fill], for [NULL] or an integer vector *)
Definition parse_max_fill (x : option (list Z)) : res Z :=
  match x with
  | None => Ok INFINITE_FILL
  | Some [m] => if (0 <? m)%Z then Ok m else Err "`max_fill` must be `NULL` or a single positive integer."
  | Some _ => Err "`max_fill` must be `NULL` or a single positive integer."
  end.

(** src/fill.c:25-55 [vec_fill_missing], with the equality proxy taken by [vec_detect_missing] *)
Definition vec_fill_missing (x : value) (down leading : bool) (max_fill : Z) : res value :=
  let size := Z.to_nat (value_size x) in
  let! na := vec_detect_missing (eq_proxy x) in
  let has_max_fill := negb (max_fill =? INFINITE_FILL)%Z in
  let! loc :=
    if down then
      if has_max_fill then vec_fill_missing_down_with_max_fill na size leading max_fill (alloc size)
      else vec_fill_missing_down na size leading (alloc size)
    else
      if has_max_fill then vec_fill_missing_up_with_max_fill na size leading max_fill (alloc size)
      else vec_fill_missing_up na size leading (alloc size) in
  vec_slice_unsafe x (SLoc loc).

(** src/fill.c:9-18 [vctrs_fill_missing], after [parse_direction] *)
Definition vctrs_fill_missing (x : value) (down leading : bool) (max_fill : option (list Z)) : res value :=
  let! max_fill := parse_max_fill max_fill in
  vec_fill_missing x down leading max_fill.
