(** * Model: sizes given as arguments and sizes of the elements of lists
    (src/size.c, src/assert.c, src/empty.c, src/type-info.c,
    src/rlang/rlang.c).

    Names of results and the wording of errors are left out. *)
From Verif Require Import Base M_Double M_Scalar M_Cast.

(** ** Numbers as sizes *)

(** C [(int64_t) x]: truncation towards zero; not defined for NaN and for
    values that do not fit. *)
Definition INT64_MIN : Z := (-9223372036854775808)%Z.
Definition INT64_MAX : Z := 9223372036854775807%Z.
Definition c_int64_of_dbl (x : dbl) : res Z :=
  if isnan x then UB "conversion of NaN to int64_t"
  else
    let t := (dbl_value x ÷ dscale)%Z in
    if (INT64_MIN <=? t)%Z && (t <=? INT64_MAX)%Z then Ok t
    else UB "conversion of an out-of-range double to int64_t".
(** C [x != floor(x)]; [floor()] keeps infinities and NaN. *)
Definition c_fractional (x : dbl) : bool :=
  isnan x || negb (dbl_value x mod dscale =? 0)%Z.

(** An argument: a double, an integer or something else, and the outcome of
    [vec_cast_e()] to double if it is an object *)
Inductive sdata := SDbl (v : list dbl) | SInt (v : list Z) | SOther.
Record sarg := SArg { sa_data : sdata; sa_object : option (option (list dbl)) }.

(** src/rlang/rlang.c:36-66 [r_arg_as_ssize] *)
Definition r_arg_as_ssize (n : sarg) : res Z :=
  match sa_data n with
  | SDbl v =>
      if negb (length v =? 1) then Err "must be a scalar integer or double."
      else
        let! out := rd v 0 in
        if c_dgt_int out R_SSIZE_MAX then Err "is too large a number."
        else
          let! t := c_int64_of_dbl out in
          (* The truncated value is a double again, so that the comparison is
             exact and [floor()] does nothing. *)
          if negb (c_deq_int out t) then Err "must be a whole number, not a decimal number."
          else Ok t
  | SInt v =>
      if negb (length v =? 1) then Err "must be a scalar integer or double."
      else rd v 0
  | SOther => Err "must be a scalar integer or double."
  end.

(** src/size.c:313-381 [vec_as_ssize] *)
Definition vec_as_ssize (n : sarg) : res Z :=
  let! d :=
    match sa_object n with
    | Some None => Err "must be a single number"
    | Some (Some v) => Ok (SDbl v)
    | None => Ok (sa_data n)
    end in
  match d with
  | SDbl v =>
      if negb (length v =? 1) then Err "must be a single number"
      else
        let! out := rd v 0 in
        if c_deq_int out NA_INTEGER then Err "must be a single number"
        else if c_fractional out then Err "must be a whole number, not a fractional number."
        else if c_dgt_int out R_SSIZE_MAX then Err "is too large a number."
        else c_int64_of_dbl out
  | SInt v =>
      if negb (length v =? 1) then Err "must be a single number"
      else
        let! out := rd v 0 in
        if (out =? NA_INTEGER)%Z then Err "must be a single number" else Ok out
  | SOther => Err "must be a single number"
  end.
(** src/size.c:292-310 [vec_as_short_length] *)
Definition vec_as_short_length (n : sarg) : res Z :=
  let! out := vec_as_ssize n in
  if (out <? 0)%Z then Err "must be a positive number or zero."
  else if (INT_MAX <? out)%Z then Err "is too large a number and long vectors are not supported."
  else Ok out.

(** ** Elements of lists *)
Section sizes.
  Context {A : Type}.
  (** src/size.c:11-57 [vec_size]: an error if the element is not a vector *)
  Context (vec_size : A -> res Z).
  (** src/type-info.c:119-126 [obj_is_vector] *)
  Context (obj_is_vector : A -> bool).

  (** A list: whether [obj_is_list()] holds, its elements as stored, and its
      [vec_size()], which is the number of elements unless it has dimensions
      or a proxy *)
  Record lst := Lst { ls_is_list : bool; ls_elts : list A; ls_size : nat }.

  (** Storing an [r_ssize] in an [int] keeps the low 32 bits. *)
  Definition int_of_ssize (s : Z) : Z := ((s - INT_MIN) mod two32 + INT_MIN)%Z.

  (** src/size.c:83-113 [list_sizes] *)
  Definition list_sizes (x : lst) : res (list Z) :=
    if negb (ls_is_list x) then Err "must be a list"
    else
      for_ 0 (ls_size x) (fun i out =>
        let! elt := rd (ls_elts x) i in
        let! s := vec_size elt in
        wr out i (int_of_ssize s)) (replicate (ls_size x) 0%Z).

  (** src/size.c:124-155 [list_all_size] *)
  Definition list_all_size (xs : list A) (size : Z) : res bool :=
    for_brk 0 (length xs) (fun i _ =>
      let! x := rd xs i in
      let! x_size := vec_size x in
      if negb (x_size =? size)%Z then Ok (Break false) else Ok (Next true)) true.
  (** src/size.c:115-122 [ffi_list_all_size] *)
  Definition ffi_list_all_size (xs : lst) (size : sarg) : res bool :=
    if negb (ls_is_list xs) then Err "must be a list"
    else
      let! size := r_arg_as_ssize size in
      list_all_size (ls_elts xs) size.

  (** src/assert.c:34-43 [vec_check_size] *)
  Definition vec_check_size (x : A) (size : Z) : res unit :=
    let! x_size := vec_size x in
    if negb (x_size =? size)%Z then Err "must have size" else Ok tt.
  (** src/assert.c:116-139 [list_check_all_size] *)
  Definition list_check_all_size (xs : list A) (size : Z) : res unit :=
    for_ 0 (length xs) (fun i _ =>
      let! x := rd xs i in
      vec_check_size x size) tt.

  (** src/type-info.c:134-152 [list_all_vectors] *)
  Definition list_all_vectors (xs : list A) : res bool :=
    for_brk 0 (length xs) (fun i _ =>
      let! x := rd xs i in
      if negb (obj_is_vector x) then Ok (Break false) else Ok (Next true)) true.
  (** src/assert.c:14-20 [obj_check_vector], 76-97 [ffi_list_check_all_vectors] *)
  Definition list_check_all_vectors (xs : list A) : res unit :=
    for_ 0 (length xs) (fun i _ =>
      let! x := rd xs i in
      if obj_is_vector x then Ok tt else Err "must be a vector") tt.

  (** src/empty.c:10-52 [list_drop_empty].  The result is [None] if the list is
      returned as it is, and else the logical vector for [vec_slice()]. *)
  Definition list_drop_empty (x : lst) : res (option (list bool)) :=
    if negb (ls_is_list x) then Err "`x` must be a list."
    else
      let size := ls_size x in
      let! i :=
        for_brk 0 size (fun i _ =>
          let! elt := rd (ls_elts x) i in
          let! s := vec_size elt in
          if (s =? 0)%Z then Ok (Break i) else Ok (Next (S i))) 0 in
      if i =? size then Ok None
      else
        let keep := replicate size false in
        let! keep := for_ 0 i (fun j keep => wr keep j true) keep in
        let! keep := wr keep i false in
        let! keep :=
          for_ (S i) (size - S i) (fun i keep =>
            let! elt := rd (ls_elts x) i in
            let! s := vec_size elt in
            wr keep i (negb (s =? 0)%Z)) keep in
        Ok (Some keep).
End sizes.
Arguments Lst {A}.
