(** * Model: shapes (src/shape.c, R/shape.R) *)
From Verif Require Import Base M_Slice.

(** A [dim] attribute: [None] is [NULL]. *)
Definition dims : Type := option (list Z).

(** src/shape.c:138-158 [vec_shape] *)
Definition vec_shape (d : dims) : res dims :=
  match d with
  | None => Ok None
  | Some d => if length d =? 0 then Err "`dimensions` must have length."
              else let! d := wr d 0 0%Z in Ok (Some d)
  end.

(** src/shape.c:160-177 [vec_dimension2] *)
Definition vec_dimension2 (x y : Z) : res Z :=
  if (x =? y)%Z then Ok x
  else if (x =? 1)%Z then Ok y
  else if (y =? 1)%Z then Ok x
  else Err "incompatible shape".

(** src/shape.c:69-132 [vec_shape2_impl] *)
Definition vec_shape2 (x y : dims) : res dims :=
  match x, y with
  | None, _ => vec_shape y
  | _, None => vec_shape x
  | Some x, Some y =>
      let '(max_dims, max_n, min_n) :=
        if length y <=? length x then (x, length x, length y) else (y, length y, length x) in
      if max_n =? 0 then Err "`max_dimensionality` must have length."
      else
        let out := replicate max_n 0%Z in
        let! out := wr out 0 0%Z in
        let! out := for_ 1 (min_n - 1) (fun i (out : list Z) =>
          let! a := rd x i in
          let! b := rd y i in
          let! d := vec_dimension2 a b in
          wr out i d) out in
        let! out := for_ (Nat.max 1 min_n) (max_n - Nat.max 1 min_n) (fun i (out : list Z) =>
          let! d := rd max_dims i in
          wr out i d) out in
        Ok (Some out)
  end.

(** ** Broadcasting, R/shape.R:21-80 *)
(** src/dim.h:17-25 [vec_dim] *)
Definition vec_dim (length : Z) (d : dims) : list Z := match d with None => [length] | Some d => d end.

(** The positions that base R's [x[i1, ..., ik, drop = FALSE]] reads, in the
    order of the result (column-major); an index is a list of positions
    counted from 0. *)
Fixpoint r_positions (dim : list Z) (idx : list (list Z)) : list Z :=
  match dim, idx with
  | d :: dim, i :: idx => flat_map (fun hi => map (fun lo => lo + d * hi)%Z i) (r_positions dim idx)
  | _, _ => [0%Z]
  end.
Definition r_array_subset {A} (x : list A) (dim : list Z) (idx : list (list Z)) : res (list A) :=
  foldr (fun p acc => let! v := rdZ x p in let! acc := acc in Ok (v :: acc)) (Ok []) (r_positions dim idx).

(** R/shape.R:85-96 [n_dim2()$x] *)
Definition n_dim2_x (x y : list Z) : list Z :=
  if length x <? length y then x ++ replicate (length y - length x) 1%Z else x.
Definition seq_z (n : Z) : list Z := map Z.of_nat (seq 0 (Z.to_nat n)).

(** R/shape.R:21-80 [shape_broadcast()] of a vector with elements [x];
    [to] is given by its length and [dim].  Returns elements and [dim]. *)
Definition shape_broadcast {A} (x : list A) (x_dim : dims) (to_length : Z) (to_dim : dims) : res (list A * dims) :=
  let dim_x := vec_dim (Z.of_nat (length x)) x_dim in
  let dim_to := vec_dim to_length to_dim in
  if (length dim_x =? 1) && (length dim_to =? 1) then Ok (x, x_dim)
  else if length dim_to <? length dim_x then Err "Can't decrease dimensionality"
  else
    let dim_x' := n_dim2_x dim_x dim_to in
    let! first := rd dim_x' 0 in
    let! dim_to := wr dim_to 0 first in
    let ok := zip_with (fun a b => (a =? b) || (a =? 1))%Z dim_x' dim_to in
    if existsb negb ok then Err "Non-recyclable dimensions."
    else
      let recycle := zip_with (fun a b => negb (a =? b))%Z dim_x' dim_to in
      let x_dim := if length dim_x =? length dim_x' then x_dim else Some dim_x' in
      if forallb negb recycle then Ok (x, x_dim)
      else
        let indices := zip_with (fun (r : bool) (ab : Z * Z) => if r then replicate (Z.to_nat ab.2) 0%Z else seq_z ab.1)
                         recycle (zip dim_x' dim_to) in
        let! out := r_array_subset x dim_x' indices in
        Ok (out, Some (map (fun i => Z.of_nat (length i)) indices)).
