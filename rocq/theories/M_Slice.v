(** * Model: slicing and assigning, src/slice.c, src/slice-array.c,
      src/slice-assign.c, src/slice-assign-array.c, src/strides.h *)
From Verif Require Import Base M_Double M_Scalar M_Hash M_Object M_Proxy.

(** C [int] arithmetic: leaving the range is undefined. *)
Definition int_ok (z : Z) : res Z :=
  if (INT_MIN <=? z)%Z && (z <=? INT_MAX)%Z then Ok z else UB "signed integer overflow".
Definition int_add (a b : Z) : res Z := int_ok (a + b).
Definition int_mul (a b : Z) : res Z := int_ok (a * b).

(** A location subscript: an integer vector of 1-based locations, a compact
    repetition (src/utils.c:886-913) or a compact sequence with 0-based start
    (src/utils.c:822-865). *)
Inductive subscript := SLoc (locs : list Z) | SRep (i n : Z) | SSeq (start n step : Z).

(** src/utils.c:940-948 [vec_subscript_size] *)
Definition vec_subscript_size (s : subscript) : Z :=
  match s with SLoc l => Z.of_nat (length l) | SRep _ n => n | SSeq _ n _ => n end.

(** src/utils.c:839-861 [compact_seq] *)
Definition compact_seq (start size : Z) (increasing : bool) : res subscript :=
  if (start <? 0)%Z then Err "`start` must not be negative."
  else if (size <? 0)%Z then Err "`size` must not be negative."
  else if negb increasing && (start + 1 <? size)%Z then Err "`size` must not be larger than `start` for decreasing sequences."
  else Ok (SSeq start size (if increasing then 1 else -1)%Z).
(** src/utils.c:895-909 [compact_rep] *)
Definition compact_rep (i n : Z) : res subscript :=
  if (n <? 0)%Z then Err "Negative `n` in `compact_rep()`." else Ok (SRep i n).

(** src/utils.c:868-883, 915-938 [compact_materialize] *)
Definition compact_seq_materialize (start size step : Z) : res (list Z) :=
  let! (out, _) :=
    for_ 0 (Z.to_nat size) (fun i '(out, start) =>
      let! out := wr out i start in
      Ok (out, start + step)%Z) (alloc (Z.to_nat size), start + 1)%Z in
  Ok out.
Definition compact_rep_materialize (i n : Z) : res (list Z) :=
  for_ 0 (Z.to_nat n) (fun k out => wr out k i) (alloc (Z.to_nat n)).
Definition compact_materialize (s : subscript) : res (list Z) :=
  match s with
  | SLoc l => Ok l
  | SRep i n => compact_rep_materialize i n
  | SSeq start n step => compact_seq_materialize start n step
  end.

Section slice.
  Context {A : Type} (na : A).

  (** src/slice.c:5-19 [SLICE_SUBSCRIPT] (and 97-113).  The output is
      uninitialised in C; here it is filled with [na] before being overwritten. *)
  Definition slice_loc (x : list A) (locs : list Z) : res (list A) :=
    for_ 0 (length locs) (fun i out =>
      let! j := rd locs i in
      let! v := (if (j =? NA_INTEGER)%Z then Ok na else rdZ x (j - 1)) in
      wr out i v) (replicate (length locs) na).
  (** src/slice.c:21-38 [SLICE_COMPACT_REP] (and 115-131) *)
  Definition slice_rep (x : list A) (j n : Z) : res (list A) :=
    let! elt := (if (j =? NA_INTEGER)%Z then Ok na else rdZ x (j - 1)) in
    for_ 0 (Z.to_nat n) (fun i out => wr out i elt) (replicate (Z.to_nat n) na).
  (** src/slice.c:40-56 [SLICE_COMPACT_SEQ] (and 133-148).  Only dereferencing is
      checked, not the pointer value after the last iteration. *)
  Definition slice_seq (x : list A) (start n step : Z) : res (list A) :=
    let! (out, _) :=
      for_ 0 (Z.to_nat n) (fun i '(out, data) =>
        let! v := rdZ x data in
        let! out := wr out i v in
        Ok (out, data + step)%Z) (replicate (Z.to_nat n) na, start) in
    Ok out.
  (** src/slice.c:58-73 [SLICE], 150-157 [SLICE_BARRIER] *)
  Definition slice_base (x : list A) (s : subscript) : res (list A) :=
    match s with
    | SRep j n => slice_rep x j n
    | SSeq start n step => slice_seq x start n step
    | SLoc locs => slice_loc x locs
    end.

  (** ** Assigning *)
  (** src/slice-assign.c:188-210 [ASSIGN_INDEX] (and 263-285) *)
  Definition assign_loc (x : list A) (locs : list Z) (value : list A) : res (list A) :=
    if negb (length locs =? length value) then Err "`value` should have been recycled to fit `x`."
    else
      for_ 0 (length locs) (fun i out =>
        let! j := rd locs i in
        if negb (j =? NA_INTEGER)%Z then
          let! v := rd value i in
          wrZ out (j - 1) v
        else Ok out) x.
  (** src/slice-assign.c:211-231 [ASSIGN_COMPACT] (and 287-303) *)
  Definition assign_seq (x : list A) (start n step : Z) (value : list A) : res (list A) :=
    if negb (n =? Z.of_nat (length value))%Z then Err "`value` should have been recycled to fit `x`."
    else
      let! (out, _) :=
        for_ 0 (Z.to_nat n) (fun i '(out, data) =>
          let! v := rd value i in
          let! out := wrZ out data v in
          Ok (out, data + step)%Z) (x, start) in
      Ok out.
  (** src/slice-assign.c:233-238 [ASSIGN], 305-310 [ASSIGN_BARRIER].  A compact
      repetition is not recognised: its two integers are taken as locations. *)
  Definition assign_base (x : list A) (s : subscript) (value : list A) : res (list A) :=
    match s with
    | SSeq start n step => assign_seq x start n step value
    | SRep i n => assign_loc x [i; n] value
    | SLoc locs => assign_loc x locs value
    end.
End slice.

(** ** Strides, src/strides.h *)

(** src/strides.h:86-98 [vec_strides] *)
Definition vec_strides (dim : list Z) (shape_n : nat) : res (list Z) :=
  let! (strides, _) :=
    for_ 0 shape_n (fun i '(strides, stride) =>
      let! d := rd dim i in
      let! stride := int_mul stride d in
      let! strides := wr strides i stride in
      Ok (strides, stride)) (alloc shape_n, 1%Z) in
  Ok strides.
(** src/strides.h:100-121 [vec_steps] *)
Definition vec_steps (index : list Z) : res (list Z) :=
  let! (steps, _) :=
    for_ 0 (length index) (fun i '(steps, prev) =>
      let! cur := rd index i in
      if (cur =? NA_INTEGER)%Z then
        let! steps := wr steps i NA_INTEGER in Ok (steps, prev)
      else
        let! d := int_add cur (- prev) in
        let! steps := wr steps i d in Ok (steps, cur)) (alloc (length index), 1%Z) in
  Ok steps.
(** src/strides.h:123-133 [vec_strided_loc] *)
Definition vec_strided_loc (shape_index strides : list Z) (shape_n : nat) : res Z :=
  for_ 0 shape_n (fun i loc =>
    let! s := rd strides i in
    let! k := rd shape_index i in
    let! p := int_mul s k in
    int_add loc p) 0%Z.
(** src/strides.h:141-149 [vec_shape_index_increment] *)
Definition vec_shape_index_increment (dim : list Z) (shape_n : nat) (idx : list Z) : res (list Z) :=
  for_brk 0 shape_n (fun j idx =>
    let! v := rd idx j in
    let! v := int_add v 1 in
    let! idx := wr idx j v in
    let! d := rd dim (S j) in
    if (v <? d)%Z then Ok (Break idx)
    else let! idx := wr idx j 0%Z in Ok (Next idx)) idx.
(** src/strides.h:187-190: number of elements per row *)
Definition shape_elem_n (dim : list Z) : res Z :=
  for_ 1 (length dim - 1) (fun i n => let! d := rd dim i in int_mul n d) 1%Z.

Section shaped.
  Context {A : Type} (na : A).

  (** The common outer loop of src/slice-array.c and src/slice-assign-array.c:
      for each element of the shape, the strided location, an inner loop, the
      next shape index. *)
  Definition shape_loop {S} (dim : list Z) (inner : Z -> S -> res S) (s0 : S) : res S :=
    let shape_n := length dim - 1 in
    let! strides := vec_strides dim shape_n in
    let! elem_n := shape_elem_n dim in
    let! (s, _) :=
      for_ 0 (Z.to_nat elem_n) (fun _ '(s, idx) =>
        let! loc := vec_strided_loc idx strides shape_n in
        let! s := inner loc s in
        let! idx := vec_shape_index_increment dim shape_n idx in
        Ok (s, idx)) (s0, alloc shape_n) in
    Ok s.

  (** src/slice-array.c:3-34 [SLICE_SHAPED_INDEX] (and 143-177); [k] is the
      position of [out_data]. *)
  Definition slice_shaped_index (x : list A) (dim : list Z) (locs : list Z) : res (list A) :=
    let! steps := vec_steps locs in
    let! elem_n := shape_elem_n dim in
    let! (out, _) :=
      shape_loop dim (fun loc '(out, k) =>
        let! (out, k, _) :=
          for_ 0 (length locs) (fun j '(out, k, loc) =>
            let! step := rd steps j in
            if (step =? NA_INTEGER)%Z then
              let! out := wr out k na in Ok (out, S k, loc)
            else
              let! loc := int_add loc step in
              let! v := rdZ x loc in
              let! out := wr out k v in
              Ok (out, S k, loc)) (out, k, loc) in
        Ok (out, k)) (replicate (Z.to_nat elem_n * length locs) na, 0) in
    Ok out.
  (** src/slice-array.c:36-76 [SLICE_SHAPED_COMPACT_REP] (and 179-220) *)
  Definition slice_shaped_rep (x : list A) (dim : list Z) (i n : Z) : res (list A) :=
    let! elem_n := shape_elem_n dim in
    let out0 := replicate (Z.to_nat elem_n * Z.to_nat n) na in
    if (i =? NA_INTEGER)%Z then
      let! out_n := int_mul elem_n n in
      for_ 0 (Z.to_nat out_n) (fun k out => wr out k na) out0
    else
      let size_index := (i - 1)%Z in
      let! (out, _) :=
        shape_loop dim (fun loc '(out, k) =>
          let! loc := int_add loc size_index in
          let! v := rdZ x loc in
          for_ 0 (Z.to_nat n) (fun _ '(out, k) =>
            let! out := wr out k v in Ok (out, S k)) (out, k)) (out0, 0) in
      Ok out.
  (** src/slice-array.c:78-108 [SLICE_SHAPED_COMPACT_SEQ] (and 222-254) *)
  Definition slice_shaped_seq (x : list A) (dim : list Z) (start n step : Z) : res (list A) :=
    let! elem_n := shape_elem_n dim in
    let! (out, _) :=
      shape_loop dim (fun loc '(out, k) =>
        let! loc := int_add loc start in
        let! (out, k, _) :=
          for_ 0 (Z.to_nat n) (fun _ '(out, k, loc) =>
            let! v := rdZ x loc in
            let! out := wr out k v in
            let! loc := int_add loc step in
            Ok (out, S k, loc)) (out, k, loc) in
        Ok (out, k)) (replicate (Z.to_nat elem_n * Z.to_nat n) na, 0) in
    Ok out.
  (** src/slice-array.c:110-117 [SLICE_SHAPED] *)
  Definition slice_shaped (x : list A) (dim : list Z) (s : subscript) : res (list A) :=
    match s with
    | SRep i n => slice_shaped_rep x dim i n
    | SSeq start n step => slice_shaped_seq x dim start n step
    | SLoc locs => slice_shaped_index x dim locs
    end.

  (** src/slice-assign-array.c:3-33 [ASSIGN_SHAPED_INDEX] (and 111-140) *)
  Definition assign_shaped_index (x : list A) (dim : list Z) (locs : list Z) (value : list A) : res (list A) :=
    let! steps := vec_steps locs in
    let! (out, _) :=
      shape_loop dim (fun loc '(out, k) =>
        let! (out, k, _) :=
          for_ 0 (length locs) (fun j '(out, k, loc) =>
            let! step := rd steps j in
            if (step =? NA_INTEGER)%Z then let! k := int_add k 1 in Ok (out, k, loc)
            else
              let! loc := int_add loc step in
              let! v := rdZ value k in
              let! out := wrZ out loc v in
              let! k := int_add k 1 in
              Ok (out, k, loc)) (out, k, loc) in
        Ok (out, k)) (x, 0%Z) in
    Ok out.
  (** src/slice-assign-array.c:35-63 [ASSIGN_SHAPED_COMPACT] (and 142-171) *)
  Definition assign_shaped_seq (x : list A) (dim : list Z) (start n step : Z) (value : list A) : res (list A) :=
    let! (out, _) :=
      shape_loop dim (fun loc '(out, k) =>
        let! loc := int_add loc start in
        let! (out, k, _) :=
          for_ 0 (Z.to_nat n) (fun _ '(out, k, loc) =>
            let! v := rdZ value k in
            let! out := wrZ out loc v in
            let! loc := int_add loc step in
            let! k := int_add k 1 in
            Ok (out, k, loc)) (out, k, loc) in
        Ok (out, k)) (x, 0%Z) in
    Ok out.
  (** src/slice-assign-array.c:67-72 [ASSIGN_SHAPED]; compact repetitions are not
      recognised. *)
  Definition assign_shaped (x : list A) (dim : list Z) (s : subscript) (value : list A) : res (list A) :=
    match s with
    | SSeq start n step => assign_shaped_seq x dim start n step value
    | SRep i n => assign_shaped_index x dim [i; n] value
    | SLoc locs => assign_shaped_index x dim locs value
    end.
End shaped.

(** ** Vectors: bare (with names), arrays, data frames *)

(** Classes, attributes other than names and dim, dimnames and row names are not
    modelled: a [value] is what [vec_proxy()] returns for a vector whose
    [vec_restore()] only puts attributes back. *)
Inductive value :=
| VVec (t : vtype) (data : list elt) (names : option (list rstr))
| VArr (t : vtype) (dim : list Z) (data : list elt)
| VDf (size : nat) (names : list rstr) (cols : list value).

(** Missing value of each type, the [NA_VALUE] arguments in src/slice.c:75-170;
    raw has none and uses 0, lists use NULL. *)
Definition vtype_na (t : vtype) : elt :=
  match t with
  | TLgl => ELgl NA_LOGICAL | TInt => EInt NA_INTEGER | TDbl => EDbl NA_REAL
  | TCpl => ECpl NA_REAL NA_REAL | TChr => EChr None | TRaw => ERaw 0%Z | TList => ELst RNull
  end.
(** [r_strs.empty] *)
Definition empty_str : rstr := Some [].

(** src/size.c:11-57 [vec_size], 59-72 [vec_raw_size] *)
Definition value_size (v : value) : Z :=
  match v with
  | VVec _ data _ => Z.of_nat (length data)
  | VArr _ dim _ => match dim with d :: _ => d | [] => 0%Z end
  | VDf n _ _ => Z.of_nat n
  end.

(** src/slice.c:284-368 [vec_slice_unsafe] with 262-269 [slice_names],
    173-208 [df_slice].  Classes with a [ `[` ] method and no proxy are not modelled. *)
Fixpoint vec_slice_unsafe (v : value) (s : subscript) : res value :=
  match v with
  | VVec t data names =>
      let! out := slice_base (vtype_na t) data s in
      let! nms := (match names with
                   | None => Ok None
                   | Some n => let! n' := slice_base empty_str n s in Ok (Some n')
                   end) in
      Ok (VVec t out nms)
  | VArr t dim data =>
      let! out := slice_shaped (vtype_na t) data dim s in
      Ok (VArr t (vec_subscript_size s :: tail dim) out)
  | VDf size names cols =>
      let! cols' :=
        (fix go (cols : list value) : res (list value) :=
           match cols with
           | [] => Ok []
           | c :: cs =>
               if negb (value_size c =? Z.of_nat size)%Z then Err "Column must match the data frame"
               else
                 let! c' := vec_slice_unsafe c s in
                 let! cs' := go cs in
                 Ok (c' :: cs')
           end) cols in
      Ok (VDf (Z.to_nat (vec_subscript_size s)) names cols')
  end.

(** src/slice-assign.c:141-186 [vec_proxy_assign_opts], 76-95 [vec_assign_switch];
    341-380 [df_assign].  [assign_names = false]; the result is a fresh value:
    ownership and in-place modification are not modelled. *)
Definition value_kind_eqb (x y : value) : bool :=
  match x, y with
  | VVec t _ _, VVec t' _ _ => vtype_eqb t t'
  | VArr t _ _, VArr t' _ _ => vtype_eqb t t'
  | VDf _ _ _, VDf _ _ _ => true
  | _, _ => false
  end.
Fixpoint vec_proxy_assign (x : value) (s : subscript) (val : value) : res value :=
  if negb (value_kind_eqb x val) then Err "`proxy` incompatible with `value` proxy"
  else
    match x, val with
    | VVec t data names, VVec _ vdata _ =>
        let! out := assign_base data s vdata in Ok (VVec t out names)
    | VArr t dim data, VArr _ _ vdata =>
        let! out := assign_shaped data dim s vdata in Ok (VArr t dim out)
    | VDf size names cols, VDf _ _ vcols =>
        if negb (length vcols =? length cols) then Err "Can't assign columns to df"
        else
          let! cols' :=
            (fix go (cols vcols : list value) : res (list value) :=
               match cols, vcols with
               | c :: cs, w :: ws =>
                   let! c' := vec_proxy_assign c s w in
                   let! cs' := go cs ws in
                   Ok (c' :: cs')
               | _, _ => Ok []
               end) cols vcols in
          Ok (VDf size names cols')
    | _, _ => Err "`proxy` incompatible with `value` proxy"
    end.
