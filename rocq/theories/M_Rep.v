(** * Model: common sizes and recycling (src/size.c, src/size-common.c),
      replication (src/rep.c), expansion (src/expand.c) *)
From Verif Require Import Base M_Double M_Scalar M_Hash M_Object M_Proxy M_Slice M_Growable M_Runs.

(** R [NULL] is [None]; other arguments are assumed to be vectors. *)

(** ** src/size-common.c *)
(** src/size-common.c:79-122 [vctrs_size2_common] *)
Definition size2_common (x y : option value) : res (option value) :=
  match x, y with
  | None, _ => Ok y
  | _, None => Ok x
  | Some vx, Some vy =>
      let nx := value_size vx in
      let ny := value_size vy in
      if (nx =? ny)%Z then Ok x
      else if (nx =? 1)%Z then Ok y
      else if (ny =? 1)%Z then Ok x
      else Err "Can't recycle inputs"
  end.
(** src/arg-counter.c:104-180 [reduce], [reduce_impl]: a left fold over the inputs. *)
Definition reduce {A} (f : A -> A -> res A) (init : A) (xs : list A) : res A :=
  for_ 0 (length xs) (fun i cur => let! next := rd xs i in f cur next) init.
(** src/size-common.c:56-77 [vec_size_common_opts] *)
Definition vec_size_common (xs : list (option value)) (absent : Z) : res Z :=
  let! common := reduce size2_common None xs in
  match common with None => Ok absent | Some v => Ok (value_size v) end.

(** src/size.c:205-228 [vec_check_recycle] *)
Definition vec_check_recycle (x : option value) (size : Z) : res (option value) :=
  match x with
  | None => Ok None
  | Some v =>
      let n_x := value_size v in
      if (n_x =? size)%Z then Ok x
      else if (n_x =? 1)%Z then
        let! i := compact_rep 1 size in
        let! out := vec_slice_unsafe v i in
        Ok (Some out)
      else Err "Can't recycle"
  end.
(** src/size.c:231-254 [ffi_recycle]; [size_obj] is the integer vector [size]
    was cast to.  Its length is not checked before [r_int_get(size_obj, 0)]. *)
Definition ffi_recycle (x : option value) (size_obj : option (list Z)) : res (option value) :=
  match x, size_obj with
  | None, _ | _, None => Ok None
  | Some _, Some s =>
      let! size := rd s 0 in
      vec_check_recycle x size
  end.
(** src/size-common.c:157-184 [vec_recycle_common_opts] *)
Definition vec_recycle_common_opts (xs : list (option value)) (size : Z) : res (list (option value)) :=
  if (size <? 0)%Z then Ok xs
  else for_ 0 (length xs) (fun i xs =>
         let! elt := rd xs i in
         let! elt := vec_check_recycle elt size in
         wr xs i elt) xs.
(** src/size-common.c:125-155 [ffi_recycle_common] without [.size] *)
Definition vec_recycle_common (xs : list (option value)) : res (list (option value)) :=
  let! common := vec_size_common xs (-1) in
  vec_recycle_common_opts xs common.

(** ** src/rep.c *)
(** src/rep.c:232-245 [check_rep_times], 277-291 [check_rep_each_times] *)
Definition check_rep_times (times : Z) : res unit :=
  if (times <? 0)%Z then
    if (times =? NA_INTEGER)%Z then Err "`times` can't be missing." else Err "`times` must be a positive number."
  else if (R_LEN_T_MAX <? times)%Z then Err "`times` too large" else Ok tt.
(** src/rep.c:218-221.  The C code multiplies doubles; for operands below 2^31
    the product is below 2^62 and rounding it cannot cross the representable
    bound, so the comparison is exact. *)
Definition multiply_would_overflow (x y : Z) : bool := (R_LEN_T_MAX <? x * y)%Z.
(** src/rep.c:224-227 *)
Definition plus_would_overflow (x y : Z) : bool := (R_LEN_T_MAX - y <? x)%Z.

(** src/rep.c:33-39, the subscript of [vec_rep] *)
Definition rep_subscript (x_size times : nat) : res (list Z) :=
  let! (sub, _) :=
    for_ 0 times (fun _ st =>
      for_ 0 x_size (fun j '(sub, k) =>
        let! sub := wr sub k (Z.of_nat j + 1)%Z in Ok (sub, S k)) st) (alloc (x_size * times), 0) in
  Ok sub.
(** src/rep.c:6-45 [vec_rep] *)
Definition vec_rep (x : value) (times : Z) : res value :=
  let! _ := check_rep_times times in
  if (times =? 1)%Z then Ok x
  else
    let x_size := value_size x in
    if (x_size =? 1)%Z then
      let! out := vec_check_recycle (Some x) times in
      match out with Some v => Ok v | None => Err "unreachable" end
    else if multiply_would_overflow x_size times then Err "Long vectors are not yet supported."
    else
      let! sub := rep_subscript (Z.to_nat x_size) (Z.to_nat times) in
      vec_slice_unsafe x (SLoc sub).

(** src/rep.c:143-149, 191-199, the subscript of [vec_rep_each]; [times] is read
    through [get] *)
Definition rep_each_subscript (x_size : nat) (get : nat -> res Z) (size : Z) : res (list Z) :=
  let! (sub, _) :=
    for_ 0 x_size (fun i '(sub, k) =>
      let! t := get i in
      for_ 0 (Z.to_nat t) (fun _ '(sub, k) =>
        let! sub := wr sub k (Z.of_nat i + 1)%Z in Ok (sub, S k)) (sub, k)) (alloc (Z.to_nat size), 0) in
  Ok sub.
(** src/rep.c:124-155 [vec_rep_each_uniform] *)
Definition vec_rep_each_uniform (x : value) (times : Z) : res value :=
  let! _ := check_rep_times times in
  let x_size := value_size x in
  if multiply_would_overflow x_size times then Err "Long vectors are not yet supported."
  else
    let! sub := rep_each_subscript (Z.to_nat x_size) (fun _ => Ok times) (x_size * times) in
    vec_slice_unsafe x (SLoc sub).
(** src/rep.c:157-205 [vec_rep_each_impl] *)
Definition vec_rep_each_impl (x : value) (times : list Z) : res value :=
  let x_size := value_size x in
  if negb (x_size =? Z.of_nat (length times))%Z then Err "Can't recycle `times`"
  else
    let! size :=
      for_ 0 (length times) (fun i size =>
        let! elt_times := rd times i in
        let! _ := check_rep_times elt_times in
        if plus_would_overflow size elt_times then Err "Long vectors are not yet supported."
        else Ok (size + elt_times)%Z) 0%Z in
    let! sub := rep_each_subscript (Z.to_nat x_size) (rd times) size in
    vec_slice_unsafe x (SLoc sub).
(** src/rep.c:76-107 [vec_rep_each]; [times] already cast to integer *)
Definition vec_rep_each (x : value) (times : list Z) : res value :=
  match times with
  | [t] =>
      if (t =? 1)%Z then Ok x
      else if (t =? 0)%Z then vec_slice_unsafe x (SLoc [])
      else vec_rep_each_uniform x t
  | _ => vec_rep_each_impl x times
  end.

(** src/rep.c:345-376 [vec_unrep]; the key and times columns *)
Definition vec_unrep (x : value) : res (value * list Z) :=
  let! times := vec_run_sizes (eq_proxy x) in
  let! (loc, _) :=
    for_ 0 (length times) (fun i '(loc, current) =>
      let! loc := wr loc i current in
      let! t := rd times i in
      Ok (loc, current + t)%Z) (alloc (length times), 1%Z) in
  let! key := vec_slice_unsafe x (SLoc loc) in
  Ok (key, times).

(** ** src/expand.c *)
Inductive vary := Slowest | Fastest.
(** src/rlang/c-utils.h:122-129 *)
Definition r_ssize_as_integer (x : Z) : res Z :=
  if (INT_MAX <? x)%Z || (x <? INT_MIN)%Z then Err "Result can't be represented as `int`." else Ok x.

(** [r_ssize] division; both operands are non-negative here *)
Definition r_ssize_div (x y : Z) : res Z := if (y =? 0)%Z then UB "division by zero" else Ok (x / y)%Z.

(** src/expand.c:28-122 [vec_expand_grid]; names are not modelled (see C34).
    Returns the size and the columns of the data frame. *)
Definition vec_expand_grid (xs : list (option value)) (v : vary) : res (Z * list value) :=
  let xs := omap id xs in
  let n := length xs in
  let sizes := map value_size xs in
  let! (cumulative, size) :=
    for_ 0 n (fun i '(cumulative, size) =>
      let! s := rd sizes i in
      let! size := r_ssize_mult size s in
      let! cumulative := wr cumulative i size in
      Ok (cumulative, size)) (alloc n, 1%Z) in
  if (R_LEN_T_MAX <? size)%Z then Err "Long vectors are not yet supported."
  else
    let! out :=
      for_ 0 n (fun i out =>
        let! x := rd xs i in
        let! c := rd cumulative i in
        let! s := rd sizes i in
        let! (times_each, times) :=
          (if negb (size =? 0)%Z then
            let! a := r_ssize_div size c in
            let! b := r_ssize_div c s in
            match v with
            | Slowest => Ok (a, b)
            | Fastest => Ok (b, a)
            end
          else Ok (0, 0)%Z) in
        let! times_each := r_ssize_as_integer times_each in
        let! x := vec_rep_each x [times_each] in
        let! times := r_ssize_as_integer times in
        let! x := vec_rep x times in
        Ok (out ++ [x])) [] in
    Ok (size, out).
