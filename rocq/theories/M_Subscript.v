(** * Model: conversion of subscripts to locations
    (src/subscript.c, src/subscript-loc.c, src/rlang/vec-lgl.c) and the public
    [vec_slice()].

    Not modelled: subscripts that are objects ([obj_cast_subscript], which
    dispatches to cast methods) or have dimensions, [vec_as_location2()]
    (R code), the construction of error conditions, and the R-level argument
    parsing of [ffi_as_location]. *)
From Verif Require Import Base M_Double M_Scalar M_Object M_Proxy M_Cast M_Slice.

(** src/subscript-loc.h:8-34: how missing, negative, out-of-bounds and zero
    locations are handled.  The first constructor is the C default (0). *)
Inductive sub_missing := MissingPropagate | MissingRemove | MissingError.
Inductive loc_negative := NegativeInvert | NegativeError | NegativeIgnore.
Inductive loc_oob := OobError | OobRemove | OobExtend.
Inductive loc_zero := ZeroRemove | ZeroError | ZeroIgnore.
Record location_opts := LocOpts {
  o_missing : sub_missing; o_negative : loc_negative; o_oob : loc_oob; o_zero : loc_zero }.
Definition default_opts : location_opts :=
  LocOpts MissingPropagate NegativeInvert OobError ZeroRemove.

(** A bare vector with its names attribute. *)
Definition named (A : Type) : Type := (list A * option (list rstr))%type.

(** C [abs()] on [int]. *)
Definition c_abs (x : Z) : res Z :=
  if (x =? INT_MIN)%Z then UB "abs(INT_MIN)" else Ok (Z.abs x).

(** [Rf_allocVector()]: a negative length is an R error. *)
Definition r_alloc {A} (dflt : A) (n : Z) : res (list A) :=
  if (n <? 0)%Z then Err "negative length vectors are not allowed"
  else Ok (replicate (Z.to_nat n) dflt).

(** src/rlang/vec-lgl.c:4-27 [r_lgl_sum] *)
Definition r_lgl_sum (x : list Z) (na_true : bool) : Z :=
  fold_left (fun sum e => (sum + b2i (if na_true then negb (e =? 0)%Z else (e =? 1)%Z))%Z) x 0%Z.

(** src/rlang/vec-lgl.c:29-106 [r_lgl_which].  The names branch marks missing
    elements by negative locations, turned into NA while the names are copied. *)
Definition r_lgl_which (x : named Z) (na_propagate : bool) : res (named Z) :=
  let (v_x, names) := x in
  let n := length v_x in
  let out_n := r_lgl_sum v_x na_propagate in
  if (INT_MAX <? out_n)%Z then Err "Can't fit result in an integer vector."
  else
    let! v_out := r_alloc 0%Z out_n in
    let! st := for_brk 0 n (fun i '(v_out, j) =>
      if negb (Z.of_nat j <? out_n)%Z then Ok (Break (v_out, j))
      else
        let! x_elt := rd v_x i in
        if na_propagate then
          let missing := (x_elt =? NA_LOGICAL)%Z in
          let mark := if names then (- Z.of_nat i - 1)%Z else NA_INTEGER in
          let elt := if missing then mark else (x_elt * (Z.of_nat i + 1))%Z in
          let! v_out := wr v_out j elt in
          Ok (Next (v_out, if (elt =? 0)%Z then j else S j))
        else
          let! v_out := wr v_out j (Z.of_nat i + 1)%Z in
          Ok (Next (v_out, if (x_elt =? 1)%Z then S j else j))) (v_out, 0) in
    let v_out := st.1 in
    match names with
    | None => Ok (v_out, None)
    | Some v_names =>
        let! out_names := r_alloc (Some [] : rstr) out_n in
        let! st := for_ 0 (Z.to_nat out_n) (fun i '(v_out, out_names) =>
          let! loc := rd v_out i in
          if na_propagate then
            let! abs_loc := c_abs loc in
            let same := (loc =? abs_loc)%Z in
            let! v_out := wr v_out i (if same then loc else NA_INTEGER) in
            let! nm := rdZ v_names (abs_loc - 1) in
            let! out_names := wr out_names i nm in
            Ok (v_out, out_names)
          else
            let! nm := rdZ v_names (loc - 1) in
            let! out_names := wr out_names i nm in
            Ok (v_out, out_names)) (v_out, out_names) in
        Ok (st.1, Some st.2)
    end.

(** src/subscript-loc.c:59-143 [lgl_as_location], with [lgl_any_na]
    (src/utils.c:974-985). *)
Definition lgl_any_na (x : list Z) : bool := existsb (fun e => (e =? NA_LOGICAL)%Z) x.
Definition lgl_as_location (x : named Z) (n : Z) (opts : location_opts) : res (named Z) :=
  let (v_x, names) := x in
  let subscript_n := Z.of_nat (length v_x) in
  if (subscript_n =? n)%Z then
    match o_missing opts with
    | MissingPropagate => r_lgl_which x true
    | MissingRemove => r_lgl_which x false
    | MissingError =>
        if lgl_any_na v_x then Err "Subscript can't contain missing values."
        else r_lgl_which x false
    end
  else if (subscript_n =? 1)%Z then
    let! elt := rd v_x 0 in
    let! st :=
      (if (elt =? NA_LOGICAL)%Z then
         match o_missing opts with
         | MissingPropagate => let! out := r_alloc NA_INTEGER n in Ok (out, n)
         | MissingRemove => Ok ([], 0%Z)
         | MissingError => Err "Subscript can't contain missing values."
         end
       else if negb (elt =? 0)%Z then
         (* r_int_fill_seq(out, 1, n) *)
         let! out := r_alloc 0%Z n in
         Ok (map (fun i => Z.of_nat i + 1)%Z (seq 0 (length out)), n)
       else Ok ([], 0%Z)) in
    let '(out, recycle_size) := st in
    match names with
    | None => Ok (out, None)
    | Some nms =>
        let! nm := rd nms 0 in
        let! recycled := r_alloc nm recycle_size in
        Ok (out, Some recycled)
    end
  else Err "Logical subscript must be size 1 or n.".

(** src/subscript-loc.c:233-292 [int_invert_location]: the loop clears
    [sel_data]. *)
Fixpoint invert_loop (data : list Z) (n : Z) (opts : location_opts) (sel : list Z) : res (list Z) :=
  match data with
  | [] => Ok sel
  | j :: data' =>
      if (j =? NA_INTEGER)%Z then
        match o_missing opts with
        | MissingRemove => invert_loop data' n opts sel
        | _ => Err "Negative locations can't have missing values."
        end
      else if (j =? 0)%Z then
        match o_zero opts with
        | ZeroError => Err "Subscript can't contain 0 values."
        | _ => invert_loop data' n opts sel
        end
      else if (0 <? j)%Z then Err "Can't mix negative and positive locations."
      else
        let! j := int_ok (- j) in
        if (n <? j)%Z then
          match o_oob opts with
          | OobRemove => invert_loop data' n opts sel
          | _ => Err "Can't negate elements past the end."
          end
        else
          let! sel := wrZ sel (j - 1) 0%Z in
          invert_loop data' n opts sel
  end.
Definition int_invert_location (x : named Z) (n : Z) (opts : location_opts) : res (named Z) :=
  let! sel := r_alloc 1%Z n in
  let! sel := invert_loop x.1 n opts sel in
  lgl_as_location (sel, None) n opts.

(** src/subscript-loc.c:294-330 [int_filter] and 340-378 [int_filter_oob]:
    both copy the elements (and names) that are to be kept to a vector of the
    size computed by the caller. *)
Definition copy_kept (keep : Z -> res bool) (x : named Z) (out_n : Z) : res (named Z) :=
  let (v, names) := x in
  let! out := r_alloc 0%Z out_n in
  let! out_names := r_alloc (Some [] : rstr) (if names then out_n else 0%Z) in
  let! st := for_ 0 (length v) (fun i '(out, out_names, j) =>
    let! elt := rd v i in
    let! k := keep elt in
    if (k : bool) then
      let! out := wr out j elt in
      let! out_names :=
        match names with
        | None => Ok out_names
        | Some v_names => let! nm := rd v_names i in wr out_names j nm
        end in
      Ok (out, out_names, S j)
    else Ok (out, out_names, j)) (out, out_names, 0) in
  let '(out, out_names, _) := st in
  Ok (out, match names with None => None | Some _ => Some out_names end).
Definition int_filter (x : named Z) (n_filter value : Z) : res (named Z) :=
  copy_kept (fun elt => Ok (negb (elt =? value)%Z)) x (Z.of_nat (length x.1) - n_filter).
Definition int_filter_oob (x : named Z) (n n_oob : Z) : res (named Z) :=
  copy_kept (fun elt =>
    let! a := c_abs elt in
    Ok ((a <=? n)%Z || (elt =? NA_INTEGER)%Z)) x (Z.of_nat (length x.1) - n_oob).

(** [qsort()] with [qsort_int_compare_scalar] (src/compare.h:33-36): any sort
    gives the same array of ints; insertion sort here. *)
Fixpoint insert_int (x : Z) (l : list Z) : list Z :=
  match l with
  | [] => [x]
  | y :: l' => if (x <=? y)%Z then x :: l else y :: insert_int x l'
  end.
Definition sort_int (l : list Z) : list Z := fold_right insert_int [] l.

(** src/subscript-loc.c:380-437 [int_check_consecutive] *)
Definition int_check_consecutive (v : list Z) (n n_extend : Z) : res unit :=
  let! extended := r_alloc 0%Z n_extend in
  let! new_n := int_ok n in
  let! st := for_ 0 (length v) (fun i '(ext, i_extend, new_n, n_extend) =>
    let! elt := rd v i in
    if (elt <=? n)%Z then Ok (ext, i_extend, new_n, n_extend)
    else
      let! elt1 := int_ok (elt - 1) in
      if (elt1 =? new_n)%Z then
        let! new_n := int_ok (new_n + 1) in
        Ok (ext, i_extend, new_n, n_extend - 1)%Z
      else
        let! ext := wr ext i_extend elt1 in
        Ok (ext, S i_extend, new_n, n_extend)) (extended, 0, new_n, n_extend) in
  let '(ext, i_extend, new_n, n_extend) := st in
  if negb (n_extend =? Z.of_nat i_extend)%Z then Err "n_extend != i_extend"
  else if i_extend =? 0 then Ok tt
  else
    let ext := sort_int (take i_extend ext) in
    for_ 0 i_extend (fun i _ =>
      let! elt := rd ext i in
      if negb (elt =? new_n + Z.of_nat i)%Z
      then Err "Can't convert to locations beyond the end with non-consecutive locations."
      else Ok tt) tt.

(** src/subscript-loc.c:145-231 [int_as_location].  The first loop counts what
    is to be removed; [None] is the early return to [int_invert_location]. *)
Fixpoint count_loop (data : list Z) (n : Z) (opts : location_opts) (c : Z * Z * Z)
    : res (option (Z * Z * Z)) :=
  match data with
  | [] => Ok (Some c)
  | elt :: data' =>
      let '(n_missing, n_zero, n_oob) := c in
      if (elt =? NA_INTEGER)%Z then
        match o_missing opts with
        | MissingPropagate => count_loop data' n opts c
        | MissingRemove => count_loop data' n opts (n_missing + 1, n_zero, n_oob)%Z
        | MissingError => Err "Subscript can't contain missing values."
        end
      else if (elt =? 0)%Z then
        match o_zero opts with
        | ZeroRemove => count_loop data' n opts (n_missing, n_zero + 1, n_oob)%Z
        | ZeroError => Err "Subscript can't contain 0 values."
        | ZeroIgnore => count_loop data' n opts c
        end
      else if (elt <? 0)%Z then
        match o_negative opts with
        | NegativeInvert => Ok None
        | NegativeError => Err "Subscript can't contain negative locations."
        | NegativeIgnore =>
            let! a := c_abs elt in
            if (n <? a)%Z then
              match o_oob opts with
              | OobError => Err "Can't subset elements past the end."
              | OobExtend => Err "Can't negate elements past the end."
              | OobRemove => count_loop data' n opts (n_missing, n_zero, n_oob + 1)%Z
              end
            else count_loop data' n opts c
        end
      else if (n <? elt)%Z then
        match o_oob opts with
        | OobError => Err "Can't subset elements past the end."
        | _ => count_loop data' n opts (n_missing, n_zero, n_oob + 1)%Z
        end
      else count_loop data' n opts c
  end.
Definition int_as_location (x : named Z) (n : Z) (opts : location_opts) : res (named Z) :=
  let! c := count_loop x.1 n opts (0, 0, 0)%Z in
  match c with
  | None => int_invert_location x n opts
  | Some (n_missing, n_zero, n_oob) =>
      let! x := (if (0 <? n_missing)%Z then int_filter x n_missing NA_INTEGER else Ok x) in
      let! x := (if (0 <? n_zero)%Z then int_filter x n_zero 0 else Ok x) in
      if (0 <? n_oob)%Z then
        match o_oob opts with
        | OobError => Err "An error should have been thrown on the first OOB value."
        | OobExtend => let! _ := int_check_consecutive x.1 n n_oob in Ok x
        | OobRemove => int_filter_oob x n n_oob
        end
      else Ok x
  end.

(** [Rf_match(names, subscript, NA_INTEGER)]: 1-based location of the first
    equal string.  Strings are compared by their bytes (one encoding). *)
Fixpoint match_first (names : list rstr) (s : rstr) (k : Z) : Z :=
  match names with
  | [] => NA_INTEGER
  | nm :: names' => if str_ptr_eqb nm s then k else match_first names' s (k + 1)%Z
  end.

(** src/subscript-loc.c:453-511 [chr_as_location].  The loop also records
    whether missing values must be removed. *)
Fixpoint chr_loop (ip : list rstr) (p : list Z) (opts : location_opts) (remove : bool)
    : res (list Z * bool) :=
  match ip, p with
  | elt :: ip', pk :: p' =>
      if str_ptr_eqb elt (Some []) then Err "Subscript can't contain the empty string."
      else if str_ptr_eqb elt None then
        match o_missing opts with
        | MissingPropagate => let! r := chr_loop ip' p' opts remove in Ok (NA_INTEGER :: r.1, r.2)
        | MissingRemove => let! r := chr_loop ip' p' opts true in Ok (NA_INTEGER :: r.1, r.2)
        | MissingError => Err "Subscript can't contain missing values."
        end
      else if (pk =? NA_INTEGER)%Z then Err "Can't subset elements that don't exist."
      else let! r := chr_loop ip' p' opts remove in Ok (pk :: r.1, r.2)
  | _, _ => Ok ([], remove)
  end.
Definition chr_as_location (x : named rstr) (names : option (list rstr)) (opts : location_opts)
    : res (named Z) :=
  match names with
  | None => Err "Can't use character names to index an unnamed vector."
  | Some nms =>
      let matched := map (fun s => match_first nms s 1) x.1 in
      let! r := chr_loop x.1 matched opts false in
      let '(p, remove_missing) := r in
      if (remove_missing : bool) then
        (* vec_slice(matched, vec_detect_complete(matched)) *)
        let not_missing := map (fun e => b2i (negb (e =? NA_INTEGER)%Z)) p in
        let! loc := lgl_as_location (not_missing, None) (Z.of_nat (length p)) default_opts in
        let! out := slice_base NA_INTEGER p (SLoc loc.1) in
        let! out_names :=
          match x.2 with
          | None => Ok None
          | Some ns => let! ns := slice_base (Some [] : rstr) ns (SLoc loc.1) in Ok (Some ns)
          end in
        Ok (out, out_names)
      else Ok (p, x.2)
  end.

(** A subscript as given by the user. *)
Inductive index :=
| INull
| ILgl (x : named Z) | IInt (x : named Z) | IDbl (x : named dbl) | IChr (x : named rstr).

(** src/subscript.c:133-173 [dbl_cast_subscript] with 175-198
    [dbl_cast_subscript_fallback], which casts with [vec_cast()]. *)
Definition dbl_cast_subscript (x : list dbl) : res (list Z) :=
  let! o := cast_loop (fun elt =>
    if isnan elt then Ok (Some NA_INTEGER)
    else if negb (isfinite elt) || c_dle_int elt INT_MIN || c_dgt_int elt INT_MAX then Ok None
    else
      let! elt_int := c_int_of_dbl elt in
      if negb (c_deq_int elt elt_int) then Ok None else Ok (Some elt_int)) x in
  match o with
  | Some out => Ok out
  | None =>
      let! y := num_cast (NDbl x) NTInt in
      match y with NInt out => Ok out | _ => Err "unreachable" end
  end.

(** src/subscript-loc.c:30-57 [vec_as_location_opts] with src/subscript.c:5-95
    [vec_as_subscript_opts], all three type actions being "cast" (as set by
    [ffi_as_location] and [vec_slice()]). *)
Definition vec_as_location_opts (i : index) (n : Z) (names : option (list rstr))
    (opts : location_opts) : res (named Z) :=
  match i with
  | INull => int_as_location ([], None) n opts
  | ILgl x => lgl_as_location x n opts
  | IInt x => int_as_location x n opts
  | IDbl x => let! v := dbl_cast_subscript x.1 in int_as_location (v, x.2) n opts
  | IChr x => chr_as_location x names opts
  end.

(** src/names.c:171-176 [vec_names] for the values modelled in M_Slice (arrays
    and data frames are modelled without row names). *)
Definition vec_names (v : value) : option (list rstr) :=
  match v with VVec _ _ names => names | _ => None end.

(** src/slice.c:409-425 [vec_slice_opts], the public [vec_slice()]. *)
Definition vec_slice (v : value) (i : index) : res value :=
  let! loc := vec_as_location_opts i (value_size v) (vec_names v) default_opts in
  vec_slice_unsafe v (SLoc loc.1).
