(** * Model: argument tags (src/arg.c) and the counters of reductions (src/arg-counter.c) *)
From Verif Require Import Base M_Scalar M_Names.
From Coq Require Import Ascii.

(** A tag such as [..2$x] is written by a chain of [struct vctrs_arg]: each link
    knows its parent and how to write its own part.  The links hold pointers to
    indices that a caller changes while it loops: a value of this type is a link
    at the time its tag is written.
    - [AStr parent s]: [new_wrapper_arg()] (src/arg.c:101-108)
    - [ALazy v]: [new_lazy_arg()] (src/arg.c:118-124)
    - [ASub parent names n i]: [new_subscript_arg()] (src/arg.c:148-188)
    - [ACounter parent p i names names_i]: [new_counter_arg()] (src/arg.c:233-252);
      [p] is the parent that its data refer to
    - [ANull]: the null pointer *)
Inductive lazy_val := LNull | LStr (s : bytes) | LOther.
Inductive arg :=
| ANull
| AStr (parent : arg) (s : bytes)
| ALazy (v : lazy_val)
| ASub (parent : arg) (names : option (list rstr)) (n i : Z)
| ACounter (parent p : arg) (i : Z) (names : option (list rstr)) (names_i : Z).
Definition arg_parent (a : arg) : arg :=
  match a with
  | ANull | ALazy _ => ANull
  | AStr p _ | ASub p _ _ _ | ACounter p _ _ _ _ => p
  end.

(** A buffer just allocated holds no values ([None]). *)
Definition buffer := list (option Z).
(** [memcpy()] of [s] to [buf + off] *)
Fixpoint wr_bytes (buf : buffer) (off : Z) (s : bytes) : res buffer :=
  match s with
  | [] => Ok buf
  | c :: s => let! buf := wrZ buf off (Some c) in wr_bytes buf (off + 1) s
  end.
(** [snprintf(buf + off, remaining, "%s", s)]: no more than [remaining - 1] bytes
    and a NUL are written.  The length of [s] is returned, or a negative number
    if it is not an [int]. *)
Definition snprintf (buf : buffer) (off remaining : Z) (s : bytes) : res (Z * buffer) :=
  let len := Z.of_nat (length s) in
  if (INT_MAX <? len)%Z then Ok ((-1)%Z, buf)
  else if (remaining <=? 0)%Z then Ok (len, buf)
  else
    let out := take (Z.to_nat (remaining - 1)) s in
    let! buf := wr_bytes buf off out in
    let! buf := wrZ buf (off + Z.of_nat (length out)) (Some 0%Z) in
    Ok (len, buf).

(** src/utils.c:1242-1254 [r_has_name_at], and the name *)
Definition r_name_at (names : option (list rstr)) (i : Z) : res (option bytes) :=
  match names with
  | None => Ok None
  | Some nms =>
      if (Z.of_nat (length nms) <=? i)%Z then Err "Names shorter than expected"
      else
        let! elt := rdZ nms i in
        Ok (match elt with Some (c :: s) => Some (c :: s) | _ => None end)
  end.

(** src/arg.c:82-94 [str_arg_fill].  [len] is a [size_t]: [remaining] is converted. *)
Definition str_arg_fill (s : bytes) (buf : buffer) (off remaining : Z) : res (Z * buffer) :=
  let len := Z.of_nat (length s) in
  if (remaining mod 2 ^ 64 <=? len)%Z then Ok ((-1)%Z, buf)
  else
    let! buf := wr_bytes buf off s in
    let! buf := wrZ buf (off + len) (Some 0%Z) in
    Ok (len, buf).

Definition ch_dollar : Z := 36%Z.
Definition ch_open : Z := 91%Z.
Definition ch_close : Z := 93%Z.
(** The digits of a [r_ssize] that is not negative: at most 20 *)
Definition decimal_ssize (n : Z) : res bytes := decimal_loop 20 n.
(** src/arg.c:205-220 and src/arg.c:262-277: what is written by the two kinds of counters *)
Definition counter_text (child : bool) (name : option bytes) (i : Z) : res bytes :=
  match name with
  | Some s => Ok (if child then ch_dollar :: s else s)
  | None =>
      let! ds := decimal_ssize (i + 1) in
      Ok (if child then [ch_open; ch_open] ++ ds ++ [ch_close; ch_close] else [ch_dot; ch_dot] ++ ds)
  end.
(** src/arg.c:222-226 and src/arg.c:280-284 *)
Definition counter_fill (child : bool) (names : option (list rstr)) (names_i i : Z)
    (buf : buffer) (off remaining : Z) : res (Z * buffer) :=
  let! name := r_name_at names names_i in
  let! text := counter_text child name i in
  let! (len, buf) := snprintf buf off remaining text in
  Ok (if (remaining <=? len)%Z then (-1)%Z else len, buf).

(** The method [fill] of a link: [wrapper_arg_fill] (src/arg.c:110-113),
    [lazy_arg_fill] (src/arg.c:126-142), [subscript_arg_fill] (src/arg.c:190-227) and
    [counter_arg_fill] (src/arg.c:254-285).  The calls of [fill] on one byte are
    those of [is_empty_arg] (src/arg.c:288-296). *)
Fixpoint arg_fill (a : arg) (buf : buffer) (off remaining : Z) : res (Z * buffer) :=
  match a with
  | ANull => UB "null pointer"
  | AStr _ s => str_arg_fill s buf off remaining
  | ALazy v =>
      match v with
      | LNull => str_arg_fill [] buf off remaining
      | LStr s => str_arg_fill s buf off remaining
      | LOther => Err "`arg` must be a string."
      end
  | ASub parent names n i =>
      if (n <=? i)%Z then Err "`i` can't be greater than `vec_size(x)`"
      else
        let! empty := match parent with
                      | ANull => Ok true
                      | _ => let! (w, _) := arg_fill parent [None] 0 1 in Ok (w =? 0)%Z
                      end in
        counter_fill (negb empty) names i i buf off remaining
  | ACounter _ p i names names_i =>
      let! empty := match p with
                    | ANull => Ok true
                    | _ => let! (w, _) := arg_fill p [None] 0 1 in Ok (w =? 0)%Z
                    end in
      counter_fill (negb empty) names names_i i buf off remaining
  end.

(** The result of [fill_arg_buffer()] is an [int]: a larger number wraps around. *)
Definition to_int (z : Z) : Z := ((z + 2 ^ 31) mod 2 ^ 32 - 2 ^ 31)%Z.
(** src/arg.c:59-79 [fill_arg_buffer] *)
Fixpoint fill_arg_buffer (a : arg) (buf : buffer) (cur_size tot_size : Z) : res (Z * buffer) :=
  let! (cur_size, buf) :=
    match a with
    | ANull | ALazy _ | AStr ANull _ | ASub ANull _ _ _ | ACounter ANull _ _ _ _ => Ok (cur_size, buf)
    | AStr p _ | ASub p _ _ _ | ACounter p _ _ _ _ => fill_arg_buffer p buf cur_size tot_size
    end in
  if (cur_size <? 0)%Z then Ok (cur_size, buf)
  else
    let! (written, buf) := arg_fill a buf cur_size (tot_size - cur_size) in
    if (written <? 0)%Z then Ok (to_int written, buf) else Ok (to_int (cur_size + written), buf).

(** [r_chr(buf)]: the bytes up to the first NUL *)
Fixpoint r_chr (buf : buffer) : res bytes :=
  match buf with
  | [] => UB "read past the buffer"
  | None :: _ => UB "uninitialised byte"
  | Some c :: buf => if (c =? 0)%Z then Ok [] else let! s := r_chr buf in Ok (c :: s)
  end.
(** [R_XLEN_T_MAX] *)
Definition XLEN_MAX : Z := (2 ^ 52)%Z.
(** src/arg.c:27-37, the loop.  The size grows by half until [r_alloc_raw()]
    refuses it: 100 rounds are enough. *)
Fixpoint vctrs_arg_loop (fuel : nat) (a : arg) (size : Z) : res bytes :=
  match fuel with
  | O => Err "fuel"
  | S fuel =>
      if (XLEN_MAX <? size)%Z then Err "cannot allocate"
      else
        let! (n, buf) := fill_arg_buffer a (replicate (Z.to_nat size) None) 0 size in
        if (n <? 0)%Z then vctrs_arg_loop fuel a (size * 3 / 2)%Z else r_chr buf
  end.
(** src/arg.c:16-43 [vctrs_arg] *)
Definition vctrs_arg (a : arg) : res bytes :=
  match a with ANull => Ok [] | _ => vctrs_arg_loop 100 a 100 end.

(** ** Counters *)
(** A pointer to a tag: one that is owned by the caller, or a field
    [curr_counter] or [next_counter] of the counters [id]. *)
Inductive handle := HExt (a : arg) | HCurr (id : nat) | HNext (id : nat).
(** A pointer to one of the two fields of a kind: [curr] or [next],
    [names_curr] or [names_next], [curr_counter_arg_data] or [next_counter_arg_data] *)
Inductive side := SCurr | SNext.
(** src/arg-counter.h:7-44 [struct counters].  [c_cd_*] and [c_nd_*] are the
    fields of [curr_counter_arg_data] and [next_counter_arg_data], [c_cc_data] and
    [c_nc_data] the field [data] of [curr_counter] and [next_counter]. *)
Record counters := Counters {
  c_curr : Z; c_next : Z;
  c_names : option (list rstr); c_names_curr : Z; c_names_next : Z;
  c_cd_i : side; c_cd_names_i : side; c_nd_i : side; c_nd_names_i : side;
  c_cc_data : side; c_nc_data : side;
  c_curr_arg : handle; c_next_arg : handle }.
(** src/arg-counter.c:6-53 [new_counters], at the place [id] *)
Definition new_counters (id : nat) (names : option (list rstr)) (p_curr_arg : handle) : counters :=
  Counters 0 0 names 0 0 SCurr SCurr SNext SNext SCurr SNext p_curr_arg (HNext id).

(** All counters made by a reduction: the first are those of [reduce()], the
    others those of its splice boxes.  [st_next] and [st_prev] are the boxes that
    the shelter of the first protects.  A box that is no longer protected may be
    freed by the garbage collector. *)
Record rstate := RState { st_heap : list counters; st_next : option nat; st_prev : option nat }.
Definition alive (st : rstate) (id : nat) : bool :=
  (id =? 0) ||
  match st_next st with Some j => id =? j | None => false end ||
  match st_prev st with Some j => id =? j | None => false end.
Definition get_counters (st : rstate) (id : nat) : res counters :=
  if alive st id then rd (st_heap st) id else UB "counters used after they are unprotected".
Definition set_counters (st : rstate) (id : nat) (c : counters) : res rstate :=
  let! heap := wr (st_heap st) id c in Ok (RState heap (st_next st) (st_prev st)).

Definition get_i (c : counters) (s : side) : Z := match s with SCurr => c_curr c | SNext => c_next c end.
Definition get_names_i (c : counters) (s : side) : Z :=
  match s with SCurr => c_names_curr c | SNext => c_names_next c end.
(** The link behind a counter whose data are on the side [s] *)
Definition counter_arg (parent : arg) (c : counters) (s : side) : arg :=
  match s with
  | SCurr => ACounter parent parent (get_i c (c_cd_i c)) (c_names c) (get_names_i c (c_cd_names_i c))
  | SNext => ACounter parent parent (get_i c (c_nd_i c)) (c_names c) (get_names_i c (c_nd_names_i c))
  end.
Definition deref (parent : arg) (st : rstate) (h : handle) : res arg :=
  match h with
  | HExt a => Ok a
  | HCurr id => let! c := get_counters st id in Ok (counter_arg parent c (c_cc_data c))
  | HNext id => let! c := get_counters st id in Ok (counter_arg parent c (c_nc_data c))
  end.
Definition handle_tag (parent : arg) (st : rstate) (h : handle) : res bytes :=
  let! a := deref parent st h in vctrs_arg a.

(** src/arg-counter.c:76-80 [counters_inc] *)
Definition counters_inc (c : counters) : counters :=
  Counters (c_curr c) (c_next c + 1) (c_names c) (c_names_curr c) (c_names_next c + 1)
    (c_cd_i c) (c_cd_names_i c) (c_nd_i c) (c_nd_names_i c) (c_cc_data c) (c_nc_data c)
    (c_curr_arg c) (c_next_arg c).
(** src/arg-counter.c:87-99 [counters_shift] *)
Definition counters_shift (id : nat) (c : counters) : counters :=
  Counters (c_next c) (c_next c) (c_names c) (c_names_curr c) (c_names_next c)
    (c_nd_i c) (c_nd_names_i c) (c_cd_i c) (c_cd_names_i c) (c_nc_data c) (c_cc_data c)
    (HCurr id) (HNext id).
(** src/arg-counter.c:55-74 [init_next_box_counters], on the counters 0 *)
Definition init_next_box_counters (st : rstate) (names : option (list rstr)) : res rstate :=
  let! c := get_counters st 0 in
  let id := length (st_heap st) in
  let b := new_counters id names (c_curr_arg c) in
  let b := Counters (c_curr b) (c_next c) (c_names b) (c_names_curr b) (c_names_next b)
             (c_cd_i b) (c_cd_names_i b) (c_nd_i b) (c_nd_names_i b) (c_cc_data b) (c_nc_data b)
             (c_curr_arg b) (c_next_arg b) in
  Ok (RState (st_heap st ++ [b]) (Some id) (st_next st)).

Section reduce.
  Context {A X : Type}.
  (** The reduction: it is given the tags of the current value and of the next
      input, and returns whether it called [counters_shift()].  The tags are
      written when the reduction asks for them; [vctrs_size2_common] and
      [ptype2_common] shift the counters last. *)
  Context (impl : A -> X -> res bytes -> res bytes -> res (A * bool)).
  Context (parent : arg).

  (** One call of [impl] with the counters [id] *)
  Definition reduce_call (id : nat) (st : rstate) (current : A) (next : X) : res (A * rstate) :=
    let! c := get_counters st id in
    let! (current, shift) := impl current next (handle_tag parent st (c_curr_arg c))
                                  (handle_tag parent st (c_next_arg c)) in
    if shift : bool then let! st := set_counters st id (counters_shift id c) in Ok (current, st)
    else Ok (current, st).
  Definition inc_call (id : nat) (st : rstate) : res rstate :=
    let! c := get_counters st id in set_counters st id (counters_inc c).

  (** src/arg-counter.c:133-170 [reduce_impl] with [spliced] *)
  Fixpoint reduce_spliced (id : nat) (st : rstate) (current : A) (rest : list X) : res (A * rstate) :=
    match rest with
    | [] => Ok (current, st)
    | next :: rest =>
        let! (current, st) := reduce_call id st current next in
        let! st := inc_call id st in
        reduce_spliced id st current rest
    end.

  (** An input: a vector, or a splice box with its names *)
  Inductive input := IOne (x : X) | IBox (names : option (list rstr)) (xs : list X).
  (** src/arg-counter.c:172-197 [reduce_splice_box] *)
  Definition reduce_splice_box (st : rstate) (current : A) (names : option (list rstr)) (rest : list X)
      : res (A * rstate) :=
    let! st := init_next_box_counters st names in
    match st_next st with
    | None => UB "null pointer"
    | Some id =>
        let! (current, st) := reduce_spliced id st current rest in
        let! c := get_counters st 0 in
        let! b := get_counters st id in
        let! st := set_counters st 0
          (Counters (c_curr c) (c_next b) (c_names c) (c_names_curr c) (c_names_next c)
             (c_cd_i c) (c_cd_names_i c) (c_nd_i c) (c_nd_names_i c) (c_cc_data c) (c_nc_data c)
             (c_curr_arg b) (c_next_arg c)) in
        Ok (current, st)
    end.
  (** src/arg-counter.c:133-170 [reduce_impl] without [spliced] *)
  Fixpoint reduce_impl (st : rstate) (current : A) (rest : list input) : res (A * rstate) :=
    match rest with
    | [] => Ok (current, st)
    | next :: rest =>
        let! (current, st) :=
          match next with
          | IOne x => reduce_call 0 st current x
          | IBox names xs => reduce_splice_box st current names xs
          end in
        let! st := inc_call 0 st in
        reduce_impl st current rest
    end.
  (** src/arg-counter.c:103-130 [reduce] *)
  Definition reduce (current : A) (p_current_arg : arg) (names : option (list rstr)) (rest : list input) : res A :=
    let st := RState [new_counters 0 names (HExt p_current_arg)] None None in
    let! (out, _) := reduce_impl st current rest in
    Ok out.
End reduce.
Arguments input : clear implicits.

(** ** The reduction of sizes *)
Definition str_of_bytes (s : bytes) : String.string :=
  fold_right (fun c => String.String (ascii_of_N (Z.to_N c))) String.EmptyString s.
(** The error of [stop_incompatible_size()] (src/conditions.c:78-112), reduced to the two tags *)
Definition size_error {A} (x_tag y_tag : bytes) : res A :=
  Err (String.append (str_of_bytes x_tag) (String.append " and " (str_of_bytes y_tag))).
(** src/size-common.c:79-122 [vctrs_size2_common].  Vectors are reduced to their
    sizes, [None] is [NULL]; all others are vectors. *)
Definition vctrs_size2_common (x y : option Z) (x_tag y_tag : res bytes) : res (option Z * bool) :=
  match x, y with
  | None, _ => Ok (y, true)
  | _, None => Ok (x, false)
  | Some nx, Some ny =>
      if (nx =? ny)%Z then Ok (x, false)
      else if (nx =? 1)%Z then Ok (y, true)
      else if (ny =? 1)%Z then Ok (x, false)
      else let! tx := x_tag in let! ty := y_tag in size_error tx ty
  end.
(** src/size-common.c:56-77 [vec_size_common_opts], as the size or [None] *)
Definition size_common_tags (parent : arg) (names : option (list rstr)) (xs : list (input (option Z))) : res (option Z) :=
  reduce vctrs_size2_common parent None (AStr ANull []) names xs.
