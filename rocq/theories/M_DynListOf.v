(** * Model: the dynamic list-of of src/rlang/dyn-list-of.c *)
From Verif Require Import Base M_Growable.

(** Storage is a list of elements of one type: byte offsets are divided by the
    size of an element.  A pointer into the reserve or into a moved array is the
    block it points into and an offset.  A block that is resized moves: since
    every resize doubles the capacity, a block is identified by its owner and
    its capacity, and using a pointer to a block that has moved since is
    undefined behaviour. *)
Inductive ptr := PReserve (capacity : Z) (offset : Z) | PMoved (arr : Z) (capacity : Z).

Section lof.
  Context {A : Type} (zero : A).

  (** src/rlang/dyn-list-of.h:5-31 [struct r_dyn_list_of].  The elements of
      [p_moved_arr] are pointers to distinct dynamic arrays: here the arrays
      themselves.  [lof_v_data] is the capacity of [p_arrays] when the public
      pointer [v_data] to its contents was taken.  The shelters are not modelled. *)
  Record lof := Lof {
    lof_count : Z; lof_capacity : Z; lof_width : Z;
    lof_reserve : list A;
    lof_moved : @dyn_array (@dyn_array A);
    lof_arr_locs : list Z;
    lof_arrays : @dyn_array (ptr * Z);
    lof_v_data : Z }.

  Definition null_pair : ptr * Z := (PReserve 0 0, 0%Z).
  Definition null_arr : @dyn_array A := Dyn [] 0 0.

  (** src/rlang/dyn-list-of.c:20-82 [r_new_dyn_list_of], for types without a
      write barrier.  32 is [R_DYN_LOF_INIT_SIZE]. *)
  Definition r_new_dyn_list_of (capacity width : Z) : res lof :=
    let! size := r_ssize_mult capacity width in
    Ok (Lof 0 capacity width
          (replicate (Z.to_nat size) zero)
          (r_new_dyn_vector null_arr 32)
          (replicate (Z.to_nat capacity) (-1)%Z)
          (r_new_dyn_vector null_pair capacity)
          capacity).

  (** Reading [n] elements from a pointer *)
  Definition block_read (data : list A) (offset n : Z) : res (list A) :=
    if (offset <? 0)%Z || (n <? 0)%Z || (Z.of_nat (length data) <? offset + n)%Z then UB "out-of-bounds read"
    else Ok (take (Z.to_nat n) (drop (Z.to_nat offset) data)).
  Definition ptr_read (l : lof) (p : ptr) (j n : Z) : res (list A) :=
    match p with
    | PReserve c offset => if (c =? lof_capacity l)%Z then block_read (lof_reserve l) (offset + j) n else UB "stale pointer"
    | PMoved k c =>
        let! a := rdZ (dyn_data (lof_moved l)) k in
        if (c =? dyn_capacity a)%Z then block_read (dyn_data a) j n else UB "stale pointer"
    end.

  (** src/rlang/dyn-list-of.c:84-99 [r_lof_unwrap] *)
  Definition r_lof_unwrap (l : lof) : res (list (list A)) :=
    for_ 0 (Z.to_nat (lof_count l)) (fun i out =>
      let! (p, size) := rd (dyn_data (lof_arrays l)) i in
      let! x := ptr_read l p 0 size in
      Ok (out ++ [x])) [].

  Definition resized {B} (z : B) (x : list B) (n : Z) : list B :=
    take (Z.to_nat n) x ++ replicate (Z.to_nat n - length x) z.
  (** src/rlang/dyn-list-of.c:100-142 [r_lof_resize]; new memory is
      uninitialised, here zero. *)
  Definition r_lof_resize (l : lof) (capacity : Z) : res lof :=
    let count := lof_count l in
    let! size := r_ssize_mult capacity (lof_width l) in
    let reserve := resized zero (lof_reserve l) size in
    let! _ := r_ssize_mult 8 capacity in
    let arr_locs := resized 0%Z (lof_arr_locs l) capacity in
    let! arr_locs := for_ (Z.to_nat count) (Z.to_nat (capacity - count)) (fun i locs => wr locs i (-1)%Z) arr_locs in
    let arrays := r_dyn_resize null_pair (lof_arrays l) capacity in
    let! data := for_ 0 (Z.to_nat count) (fun i data =>
      let! loc := rd arr_locs i in
      if (loc <? 0)%Z then
        let! (_, size) := rd data i in
        wr data i (PReserve capacity (Z.of_nat i * lof_width l), size)
      else Ok data) (dyn_data arrays) in
    Ok (Lof count capacity (lof_width l) reserve (lof_moved l) arr_locs
          (Dyn data (dyn_count arrays) (dyn_capacity arrays)) (dyn_capacity arrays)).

  (** src/rlang/dyn-list-of.c:144-161 [r_lof_push_back] *)
  Definition r_lof_push_back (l : lof) : res lof :=
    let count := (lof_count l + 1)%Z in
    let! l :=
      (if (lof_capacity l <? count)%Z then
         let! new_size := r_ssize_mult (lof_capacity l) 2 in
         r_lof_resize l new_size
       else Ok l) in
    let info := (PReserve (lof_capacity l) ((count - 1) * lof_width l), 0%Z) in
    let! arrays := r_dyn_push_back null_pair (lof_arrays l) info in
    Ok (Lof count (lof_capacity l) (lof_width l) (lof_reserve l) (lof_moved l) (lof_arr_locs l) arrays (lof_v_data l)).

  Definition set_moved (l : lof) (moved : @dyn_array (@dyn_array A)) (locs : list Z) (arrays : @dyn_array (ptr * Z)) : lof :=
    Lof (lof_count l) (lof_capacity l) (lof_width l) (lof_reserve l) moved locs arrays (lof_v_data l).
  (** [R_DYN_POKE], src/rlang/dyn-array.h *)
  Definition dyn_poke {B} (p : @dyn_array B) (i : Z) (x : B) : res (@dyn_array B) :=
    let! data := wrZ (dyn_data p) i x in Ok (Dyn data (dyn_count p) (dyn_capacity p)).

  (** src/rlang/dyn-list-of.c:219-240 [reserve_move] *)
  Definition reserve_move (l : lof) (i : Z) : res lof :=
    let n := lof_width l in
    let new := r_new_dyn_vector zero (lof_width l) in
    let! (old, _) := rdZ (dyn_data (lof_arrays l)) i in
    let! x := ptr_read l old 0 n in
    let! data := (if (Z.of_nat (length (dyn_data new)) <? n)%Z then UB "out-of-bounds write" else Ok (x ++ drop (Z.to_nat n) (dyn_data new))) in
    let new := Dyn data n (dyn_capacity new) in
    let! moved := r_dyn_push_back null_arr (lof_moved l) new in
    let! arrays := dyn_poke (lof_arrays l) i (PMoved (dyn_count moved - 1) (dyn_capacity new), n) in
    let! locs := wrZ (lof_arr_locs l) i (dyn_count moved - 1)%Z in
    Ok (set_moved l moved locs arrays).

  (** src/rlang/dyn-list-of.c:191-217 [reserve_push_back]; a null [p_elt] writes
      zeros. *)
  Definition reserve_push_back (l : lof) (i : Z) (p_elt : option A) : res (lof * bool) :=
    let! loc := rdZ (lof_arr_locs l) i in
    if (0 <=? loc)%Z then Ok (l, false)
    else
      let! (p, size) := rdZ (dyn_data (lof_arrays l)) i in
      if (lof_width l <=? size)%Z then let! l := reserve_move l i in Ok (l, false)
      else
        let count := (size + 1)%Z in
        let! arrays := dyn_poke (lof_arrays l) i (p, count) in
        let! reserve := wrZ (lof_reserve l) (i * lof_width l + count - 1) (default zero p_elt) in
        Ok (Lof (lof_count l) (lof_capacity l) (lof_width l) reserve (lof_moved l) (lof_arr_locs l) arrays (lof_v_data l), true).

  (** src/rlang/dyn-list-of.c:163-189 [r_lof_arr_push_back] *)
  Definition r_lof_arr_push_back (l : lof) (i : Z) (p_elt : option A) : res lof :=
    if (lof_count l <=? i)%Z then Err "Location does not exist."
    else
      let! (l, done) := reserve_push_back l i p_elt in
      if done : bool then Ok l
      else
        let! arr_i := rdZ (lof_arr_locs l) i in
        if (dyn_count (lof_moved l) <=? arr_i)%Z then Err "Location does not exist in the extra array"
        else
          let! inner := rdZ (dyn_data (lof_moved l)) arr_i in
          let! inner := r_dyn_push_back zero inner (default zero p_elt) in
          let! moved := dyn_poke (lof_moved l) arr_i inner in
          let! arrays := dyn_poke (lof_arrays l) i (PMoved arr_i (dyn_capacity inner), dyn_count inner) in
          Ok (set_moved l moved (lof_arr_locs l) arrays).

  (** src/rlang/dyn-list-of.h:44-49 [r_lof_arr_ptr], followed by a read; 50-53
      [r_lof_arr_ptr_front]; 54-57 [r_lof_arr_ptr_back], whose index is that of
      the last array, not of the last element. *)
  Definition r_lof_arr_get (l : lof) (i j : Z) : res (list A) :=
    let! (p, _) := rdZ (dyn_data (lof_arrays l)) i in ptr_read l p j 1.
  Definition r_lof_arr_front (l : lof) (i : Z) : res (list A) := r_lof_arr_get l i 0.
  Definition r_lof_arr_back (l : lof) (i : Z) : res (list A) := r_lof_arr_get l i (lof_count l - 1).
  (** The public [v_data[i]]: address and size, as used by callers *)
  Definition r_lof_data (l : lof) (i : Z) : res (list A) :=
    if (lof_v_data l =? dyn_capacity (lof_arrays l))%Z then
      let! (p, size) := rdZ (dyn_data (lof_arrays l)) i in ptr_read l p 0 size
    else UB "stale pointer".
End lof.
