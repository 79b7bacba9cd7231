(** * Model: growable integer vectors and dynamic arrays *)
From Verif Require Import Base.

(** [Rf_lengthgets] (base R): truncate, or pad integers with NA. *)
Definition lengthgets (x : list Z) (n : nat) : list Z :=
  take n x ++ replicate (n - length x) NA_INTEGER.

(** src/vctrs.h:211-218 [struct growable] *)
Record growable := Growable { g_x : list Z; g_n : nat; g_capacity : Z }.

(** src/growable.c:3-13 [new_growable] *)
Definition new_growable (capacity : Z) : growable :=
  Growable (replicate (Z.to_nat capacity) 0%Z) 0 capacity.

(** src/vctrs.h:223-234 [growable_push_int].  [capacity] is an [int]: doubling
    it past INT_MAX is signed overflow. *)
Definition growable_push_int (g : growable) (i : Z) : res growable :=
  let! g :=
    (if (Z.of_nat (g_n g) =? g_capacity g)%Z then
       let capacity := (g_capacity g * 2)%Z in
       if (INT_MAX <? capacity)%Z then UB "signed integer overflow"
       else Ok (Growable (lengthgets (g_x g) (Z.to_nat capacity)) (g_n g) capacity)
     else Ok g) in
  let! x := wr (g_x g) (g_n g) i in
  Ok (Growable x (S (g_n g)) (g_capacity g)).

(** src/growable.c:15-17 [growable_values] *)
Definition growable_values (g : growable) : list Z := lengthgets (g_x g) (g_n g).

(** ** src/rlang/dyn-array.c: dynamic arrays of any element type *)

(** src/rlang/c-utils.h:77-105 [r_ssize_mult], for non-negative operands *)
Definition r_ssize_mult (x y : Z) : res Z :=
  if (0 <? x)%Z && (0 <? y)%Z && (R_SSIZE_MAX / y <? x)%Z
  then Err "Result too large for an r_ssize" else Ok (x * y)%Z.

Section dyn.
  Context {A : Type} (zero : A).
  (** src/rlang/dyn-array.h:7-21.  Element storage is a list of elements; byte
      layout is not modelled. *)
  Record dyn_array := Dyn { dyn_data : list A; dyn_count : Z; dyn_capacity : Z }.

  (** src/rlang/dyn-array.c:10-49 [r_new_dyn_vector] *)
  Definition r_new_dyn_vector (capacity : Z) : dyn_array :=
    Dyn (replicate (Z.to_nat capacity) zero) 0 capacity.

  (** src/rlang/dyn-array.c:84-112 [r_dyn_resize]; [r_vec_resize0] copies the
      common prefix. *)
  Definition r_dyn_resize (p : dyn_array) (capacity : Z) : dyn_array :=
    Dyn (take (Z.to_nat capacity) (dyn_data p) ++ replicate (Z.to_nat capacity - length (dyn_data p)) zero)
        (Z.min (dyn_count p) capacity) capacity.

  (** src/rlang/dyn-array.h:144-154 [r__dyn_increment] *)
  Definition r_dyn_increment (p : dyn_array) : res (dyn_array * Z) :=
    let loc := dyn_count p in
    let p := Dyn (dyn_data p) (dyn_count p + 1) (dyn_capacity p) in
    if (dyn_capacity p <? dyn_count p)%Z then
      let! new_capacity := r_ssize_mult (dyn_capacity p) 2 in
      Ok (r_dyn_resize p new_capacity, loc)
    else Ok (p, loc).

  (** src/rlang/dyn-array.h:154-178 [r_dyn_<type>_push_back],
      src/rlang/dyn-array.c:70-82 [r_dyn_push_back] (which stores at
      [count - 1] instead of [loc]). *)
  Definition r_dyn_push_back (p : dyn_array) (elt : A) : res dyn_array :=
    let! (p, loc) := r_dyn_increment p in
    let! data := wrZ (dyn_data p) loc elt in
    Ok (Dyn data (dyn_count p) (dyn_capacity p)).

  (** src/rlang/dyn-array.h:136-141 [r_dyn_pop_back] *)
  Definition r_dyn_pop_back (p : dyn_array) : res (dyn_array * A) :=
    let! out := rdZ (dyn_data p) (dyn_count p - 1) in
    Ok (Dyn (dyn_data p) (dyn_count p - 1) (dyn_capacity p), out).

  (** src/rlang/dyn-array.c:51-57 [r_dyn_unwrap] *)
  Definition r_dyn_unwrap (p : dyn_array) : list A :=
    take (Z.to_nat (dyn_count p)) (dyn_data p) ++
    replicate (Z.to_nat (dyn_count p) - length (dyn_data p)) zero.
End dyn.
Arguments Dyn {A}.
Arguments dyn_data {A}.
Arguments dyn_count {A}.
Arguments dyn_capacity {A}.
