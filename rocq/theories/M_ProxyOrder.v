(** * Model: proxies of nested objects and the arguments of [vec_order()]

    src/proxy.c, [df_flatten()] of src/type-data-frame.c (without names; with
    names in M_DfList.v) and the expansion of the arguments in src/order.c
    (in M_OrderDf.v the factors are given). *)
From Verif Require Import Base.

(** A column or vector is bare (no class and no dimensions) or not; a data
    frame has a class (0: none but those of data frames and tibbles). *)
Inductive obj := PVec (bare : bool) (id : Z) | PDf (cls : Z) (cols : list obj).
(** [is_data_frame] *)
Definition is_df (x : obj) : bool := match x with PDf _ _ => true | PVec _ _ => false end.

(** ** Flattening *)

(** src/type-data-frame.c:858-873 [df_flat_width] *)
Fixpoint df_flat_width (x : obj) : Z :=
  match x with
  | PDf _ cols =>
      (fix go (cols : list obj) (out : Z) : Z :=
         match cols with
         | [] => out
         | c :: cols => go cols (if is_df c then (out + df_flat_width c - 1)%Z else out)
         end) cols (Z.of_nat (length cols))
  | _ => 0%Z
  end.
(** src/type-data-frame.c:880-898 [df_flatten_info] *)
Definition df_flatten_info (cols : list obj) : res (bool * Z) :=
  for_ 0 (length cols) (fun i '(flatten, width) =>
    let! col := rd cols i in
    Ok (if is_df col then (true, (width + df_flat_width col - 1)%Z) else (flatten, width)))
    (false, Z.of_nat (length cols)).
(** src/type-data-frame.c:936-958 [df_flatten_loop]: the output and the counter *)
Fixpoint df_flatten_loop (x : obj) (st : list (option obj) * nat) : res (list (option obj) * nat) :=
  match x with
  | PDf _ cols =>
      (fix go (cols : list obj) (st : list (option obj) * nat) : res (list (option obj) * nat) :=
         match cols with
         | [] => Ok st
         | col :: cols =>
             let! st :=
               if is_df col then df_flatten_loop col st
               else
                 let '(out, counter) := st in
                 let! out := wr out counter (Some col) in
                 Ok (out, S counter) in
             go cols st
         end) cols st
  | _ => UB "not a list"
  end.
(** An element of a new list that was not written is NULL, which is no column. *)
Fixpoint all_written (l : list (option obj)) : res (list obj) :=
  match l with
  | [] => Ok []
  | Some x :: l => let! l := all_written l in Ok (x :: l)
  | None :: _ => UB "a column is NULL"
  end.
(** src/type-data-frame.c:917-934 [df_flatten] *)
Definition df_flatten (cls : Z) (cols : list obj) : res obj :=
  let! (flatten, width) := df_flatten_info cols in
  if negb flatten then Ok (PDf cls cols)
  else
    let! (out, _) := df_flatten_loop (PDf cls cols) (replicate (Z.to_nat width) None, 0) in
    let! out := all_written out in
    Ok (PDf 0 out).

(** src/proxy.c:246-251 [vec_proxy_unwrap] *)
Fixpoint vec_proxy_unwrap (x : obj) : obj :=
  match x with
  | PDf _ [c] => vec_proxy_unwrap c
  | _ => x
  end.

Section proxy.
  (** src/proxy.c:109-120 [vec_proxy_equal_impl], [vec_proxy_compare_impl] or
      [vec_proxy_order_impl]: the S3 method, which may be any function *)
  Context (impl : obj -> res obj).

  (** src/proxy.c:216-234 [df_proxy] for one kind, where [rec] is
      [vec_proxy_equal], [vec_proxy_compare] or [vec_proxy_order] *)
  Definition df_proxy (rec : obj -> res obj) (cls : Z) (cols : list obj) : res obj :=
    let! cols :=
      for_ 0 (length cols) (fun i cols =>
        let! col := rd cols i in
        let! p := rec col in
        wr cols i p) cols in
    let! x := df_flatten cls cols in
    Ok (vec_proxy_unwrap x).

  (** src/proxy.c:57-96 [vec_proxy_equal], [vec_proxy_compare],
      [vec_proxy_order].  [fuel] bounds the depth of the recursion. *)
  Fixpoint vec_proxy (fuel : nat) (x : obj) : res obj :=
    match fuel with
    | O => Err "out of fuel"
    | S fuel =>
        let! out := impl x in
        match out with
        | PDf cls cols => df_proxy (vec_proxy fuel) cls cols
        | _ => Ok out
        end
    end.

  (** src/order.c:4523-4569 [vec_decreasing_expansion],
      [df_decreasing_expansion] (sums do not overflow) *)
  Fixpoint vec_decreasing_expansion (fuel : nat) (x : obj) : res nat :=
    match x with
    | PVec true _ => Ok 1
    | PDf _ cols =>
        (fix go (cols : list obj) (out : nat) : res nat :=
           match cols with
           | [] => Ok out
           | col :: cols =>
               let! e := vec_decreasing_expansion fuel col in
               go cols (out + e)
           end) cols 0
    | PVec false _ =>
        let! proxy := vec_proxy fuel x in
        Ok (match proxy with PDf _ cols => length cols | _ => 1 end)
    end.
  (** src/order.c:4492-4518 [expand_arg] *)
  Definition expand_arg (arg : list bool) (expansions : list nat) (n_arg size : nat) : res (list bool) :=
    if n_arg =? 1 then Ok arg
    else
      let! (out, _) :=
        for_ 0 n_arg (fun i st =>
          let! col_arg := rd arg i in
          let! expansion := rd expansions i in
          for_ 0 expansion (fun _ '(out, k) =>
            let! out := wr out k col_arg in
            Ok (out, S k)) st) (replicate size false, 0) in
      Ok out.
  (** src/order.c:4427-4490 [df_expand_args] *)
  Definition df_expand_args (fuel : nat) (cols : list obj) (decreasing na_largest : list bool)
    : res (list bool * list bool) :=
    let n_decreasing := length decreasing in
    let n_na_largest := length na_largest in
    let n_cols := length cols in
    if (n_decreasing =? 1) && (n_na_largest =? 1) then Ok (decreasing, na_largest)
    else if negb (n_decreasing =? 1) && negb (n_decreasing =? n_cols) then
      Err "`direction` should have length 1 or length equal to the number of columns of `x` when `x` is a data frame."
    else if negb (n_na_largest =? 1) && negb (n_na_largest =? n_cols) then
      Err "`na_value` should have length 1 or length equal to the number of columns of `x` when `x` is a data frame."
    else
      let! (expansions, size, needs_expansion) :=
        for_ 0 n_cols (fun i '(es, size, needs) =>
          let! col := rd cols i in
          let! e := vec_decreasing_expansion fuel col in
          let! es := wr es i e in
          Ok (es, size + e, needs || negb (e =? 1))) (replicate n_cols 0, 0, false) in
      if negb needs_expansion then Ok (decreasing, na_largest)
      else
        let! decreasing := expand_arg decreasing expansions n_decreasing size in
        let! na_largest := expand_arg na_largest expansions n_na_largest size in
        Ok (decreasing, na_largest).
  (** src/order.c:4385-4422 [vec_order_expand_args]; the arguments are logical
      and not missing, which the parsers see to. *)
  Definition order_args (fuel : nat) (x : obj) (decreasing na_largest : list bool)
    : res (list bool * list bool) :=
    match x with
    | PDf _ cols => df_expand_args fuel cols decreasing na_largest
    | PVec _ _ =>
        if negb (length decreasing =? 1) then
          Err "`direction` must be a single value when `x` is not a data frame."
        else if negb (length na_largest =? 1) then
          Err "`na_value` must be a single value when `x` is not a data frame."
        else Ok (decreasing, na_largest)
    end.
End proxy.

(** ** The strings of [direction] and [na_value] *)
Inductive word := WLargest | WSmallest | WAsc | WDesc | WOther | WNA.
(** src/order.c:4629-4644 [parse_na_value_one] *)
Definition parse_na_value_one (x : word) : res bool :=
  match x with
  | WNA => Err "`na_value` can't be missing."
  | WLargest => Ok true
  | WSmallest => Ok false
  | _ => Err "`na_value` must contain only ""largest"" or ""smallest""."
  end.
(** src/order.c:4669-4684 [parse_direction_one] *)
Definition parse_direction_one (x : word) : res bool :=
  match x with
  | WNA => Err "`direction` can't be missing."
  | WAsc => Ok false
  | WDesc => Ok true
  | _ => Err "`direction` must contain only ""asc"" or ""desc""."
  end.
(** src/order.c:4607-4626 [parse_na_value], 4647-4666 [parse_direction] *)
Definition parse_words (one : word -> res bool) (x : list word) : res (list bool) :=
  for_ 0 (length x) (fun i out =>
    let! w := rd x i in
    let! b := one w in
    wr out i b) (replicate (length x) false).
