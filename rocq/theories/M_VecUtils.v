(** * Model of small utilities on vectors, attributes and preserved objects

    src/rlang/vec-chr.c, src/rlang/vec.c:100-228, src/rlang/obj.c:37-96,
    src/utils.c:263-318 and 1075-1093 and 1435-1461, src/slice.c:370-396.

    Simplifications: two vectors given to a copying function are different
    objects; the nine types of [r_vec_poke_n] share one model, since each
    branch is the same loop; arithmetic on [r_ssize] does not overflow
    (lengths are below 2^52); protection is left out. *)
From Verif Require Import Base.
From stdpp Require Import list strings.
Open Scope nat_scope.

Definition int_max_vu : Z := 2147483647.
Definition int_min_vu : Z := -2147483648.

(** An element of a character vector: [None] is [NA_STRING]. *)
Notation relt := (option string).

(** [CHAR()]: the bytes of [NA_STRING] are "NA". *)
Definition char_of (s : relt) : string :=
  match s with Some s => s | None => "NA"%string end.

Definition streq (a b : string) : bool := bool_decide (a = b).

(** src/rlang/vec-chr.c:5-16 [r_chr_detect_index] *)
Fixpoint detect_from (chr : list relt) (c : string) (i : Z) : Z :=
  match chr with
  | [] => (-1)%Z
  | s :: chr => if streq (char_of s) c then i else detect_from chr c (i + 1)%Z
  end.
Definition r_chr_detect_index (chr : list relt) (c : string) : Z := detect_from chr c 0.

(** src/rlang/vec-chr.c:17-20 [r_chr_has] *)
Definition r_chr_has (chr : list relt) (c : string) : bool :=
  (0 <=? r_chr_detect_index chr c)%Z.

(** src/rlang/vec-chr.c:28-33, the inner [while]: whether a string was equal,
    and where the pointer [c_strings] is left. *)
Fixpoint any_inner (cur : string) (cs : list string) : bool * list string :=
  match cs with
  | [] => (false, [])
  | c :: cs' => if streq cur c then (true, cs) else any_inner cur cs'
  end.

(** src/rlang/vec-chr.c:22-37 [r_chr_has_any].  The pointer is the
    parameter itself: it is not put back for the next element. *)
Fixpoint r_chr_has_any (chr : list relt) (cs : list string) : bool :=
  match chr with
  | [] => false
  | s :: chr =>
      let (found, cs) := any_inner (char_of s) cs in
      if found then true else r_chr_has_any chr cs
  end.

(** src/rlang/vec.c:172-173, the loop [for (i = 0; i != n; ++i)].  The fuel is
    enough for every run that stays in bounds (see [r_vec_poke_n]). *)
Fixpoint poke_loop {A} (fuel : nat) (x : list A) (offset : Z) (y : list A) (from n i : Z)
  : res (list A) :=
  if (i =? n)%Z then Ok x
  else match fuel with
       | O => Err "out of fuel"
       | S fuel =>
           let! v := rdZ y (i + from) in
           let! x := wrZ x (i + offset) v in
           poke_loop fuel x offset y from n (i + 1)%Z
       end.

(** src/rlang/vec.c:158-223 [r_vec_poke_n] *)
Definition r_vec_poke_n {A} (x : list A) (offset : Z) (y : list A) (from n : Z)
  : res (list A) :=
  if (Z.of_nat (length x) - offset <? n)%Z
  then Err "Can't copy data to `x` because it is too small"
  else if (Z.of_nat (length y) - from <? n)%Z
  then Err "Can't copy data from `y` because it is too small"
  else poke_loop (S (length y) + Z.to_nat (Z.abs n)) x offset y from n 0.

(** src/rlang/vec.c:225-228 [r_vec_poke_range] *)
Definition r_vec_poke_range {A} (x : list A) (offset : Z) (y : list A) (from to : Z)
  : res (list A) :=
  r_vec_poke_n x offset y from (to - from + 1).

(** [int n = r_length(chr)] and [n + 1]; a length above the largest [int] is
    converted in a way the implementation defines: [UB] here. *)
Definition int_plus_one (n : nat) : res nat :=
  if (Z.of_nat n + 1 <=? int_max_vu)%Z then Ok (S n) else UB "int overflow".

(** src/rlang/vec-chr.c:58-73 [chr_prepend]; [None] is [NULL] *)
Definition chr_prepend (chr : option (list relt)) (s : relt) : res (list relt) :=
  match chr with
  | None => Ok [s]
  | Some chr =>
      let! m := int_plus_one (length chr) in
      let out := replicate m (Some ""%string) in
      let! out := r_vec_poke_n out 1 chr 0 (Z.of_nat (length chr)) in
      wrZ out 0 s
  end.

(** src/rlang/vec-chr.c:74-88 [chr_append] *)
Definition chr_append (chr : option (list relt)) (s : relt) : res (list relt) :=
  match chr with
  | None => Ok [s]
  | Some chr =>
      let! m := int_plus_one (length chr) in
      let out := replicate m (Some ""%string) in
      let! out := r_vec_poke_n out 0 chr 0 (Z.of_nat (length chr)) in
      wrZ out (Z.of_nat (length chr)) s
  end.

(** src/rlang/vec.c:107-111: the flags and their number; [None] is [NULL] *)
Fixpoint compact_flags {A} (x : list (option A)) : list bool * nat :=
  match x with
  | [] => ([], 0)
  | e :: x =>
      let (inc, n) := compact_flags x in
      let b := match e with Some _ => true | None => false end in
      (b :: inc, (if b then 1 else 0) + n)
  end.

(** src/rlang/vec.c:114-119 *)
Fixpoint compact_fill {A} (x : list (option A)) (inc : list bool) (count : nat)
    (out : list (option A)) : res (list (option A)) :=
  match x with
  | [] => Ok out
  | e :: x =>
      match inc with
      | [] => UB "out-of-bounds read"
      | b :: inc =>
          if b
          then let! out := wr out count e in compact_fill x inc (S count) out
          else compact_fill x inc count out
      end
  end.

(** src/rlang/vec.c:100-123 [r_list_compact] *)
Definition r_list_compact {A} (x : list (option A)) : res (list (option A)) :=
  let (inc, new_n) := compact_flags x in
  compact_fill x inc 0 (replicate new_n None).

(** src/utils.c:1078-1080: one step writes [start] and then increments it *)
Fixpoint fill_seq (n i : nat) (x : list Z) (start : Z) : res (list Z) :=
  match n with
  | O => Ok x
  | S n =>
      let! x := wr x i start in
      if (start =? int_max_vu)%Z then UB "int overflow"
      else fill_seq n (S i) x (start + 1)%Z
  end.

(** src/utils.c:1075-1081 [r_int_fill_seq]; a negative [n] fills nothing *)
Definition r_int_fill_seq (x : list Z) (start n : Z) : res (list Z) :=
  fill_seq (Z.to_nat n) 0 x start.

(** src/utils.c:1083-1093 [r_seq] *)
Definition r_seq (from to : Z) : res (list Z) :=
  let n := (to - from)%Z in
  if ((n <? int_min_vu) || (int_max_vu <? n))%Z then UB "int overflow"
  else if (n <? 0)%Z then Err "Negative length."
  else r_int_fill_seq (replicate (Z.to_nat n) 0%Z) from n.

(** src/utils.c:1451-1456: a loop copying [p] to [out] from position [j] *)
Fixpoint copy_to {A} (p : list A) (j : nat) (out : list A) : res (list A) :=
  match p with
  | [] => Ok out
  | s :: p => let! out := wr out j s in copy_to p (S j) out
  end.

(** src/utils.c:1435-1461 [chr_c] *)
Definition chr_c (x y : list relt) : res (list relt) :=
  if length x =? 0 then Ok y
  else if length y =? 0 then Ok x
  else
    let out := replicate (length x + length y) (Some ""%string) in
    let! out := copy_to x 0 out in
    copy_to y (length x) out.

(** ** Attributes *)

(** Attributes as a list of names and values. *)
Fixpoint attr_get {V} (a : list (string * V)) (k : string) : option V :=
  match a with
  | [] => None
  | (k', v) :: a => if streq k' k then Some v else attr_get a k
  end.
Fixpoint attr_strip {V} (a : list (string * V)) (k : string) : list (string * V) :=
  match a with
  | [] => []
  | (k', v) :: a => if streq k' k then attr_strip a k else (k', v) :: attr_strip a k
  end.

(** [Rf_setAttrib()] of R as far as it matters here: [NULL] removes, setting
    or removing [dim] removes [dimnames], and [dimnames] need a [dim].  Left
    out: checks of the values, and [names] of a one-dimensional array. *)
Definition set_attrib {V} (a : list (string * V)) (k : string) (v : option V)
  : res (list (string * V)) :=
  match v with
  | None =>
      let a := if streq k "dim" then attr_strip a "dimnames" else a in
      Ok (attr_strip a k)
  | Some v =>
      if streq k "dim" then Ok (attr_strip (attr_strip a "dimnames") k ++ [(k, v)])
      else if streq k "dimnames" then
        match attr_get a "dim" with
        | None => Err "'dimnames' applied to non-array"
        | Some _ => Ok (attr_strip a k ++ [(k, v)])
        end
      else Ok (attr_strip a k ++ [(k, v)])
  end.

(** src/utils.c:287-294 *)
Fixpoint check_attr_names (names : list relt) : res unit :=
  match names with
  | [] => Ok tt
  | None :: _ => Err "All attributes must have names."
  | Some s :: names =>
      if streq s "" then Err "All attributes must have names." else check_attr_names names
  end.

(** src/utils.c:297-303 *)
Fixpoint find_dim_pos (names : list relt) (i : Z) : Z :=
  match names with
  | [] => (-1)%Z
  | s :: names => if streq (char_of s) "dim" then i else find_dim_pos names (i + 1)%Z
  end.

(** src/utils.c:309-314 *)
Fixpoint set_others {V} (names : list relt) (attrib : list (option V)) (i dim_pos : Z)
    (a : list (string * V)) : res (list (string * V)) :=
  match attrib with
  | [] => Ok a
  | v :: attrib =>
      match names with
      | [] => UB "out-of-bounds read"
      | s :: names =>
          if (i =? dim_pos)%Z then set_others names attrib (i + 1)%Z dim_pos a
          else
            let! a := set_attrib a (char_of s) v in
            set_others names attrib (i + 1)%Z dim_pos a
      end
  end.

(** src/utils.c:263-318 [vctrs_set_attributes]: the attributes of the result.
    [names = None]: the list has no names.  [NULL] values are [None]. *)
Definition vctrs_set_attributes {V} (old : list (string * V))
    (names : option (list relt)) (attrib : list (option V)) : res (list (string * V)) :=
  let x := [] in
  if length attrib =? 0 then Ok x
  else match names with
       | None => Err "Attributes must be named."
       | Some names =>
           let! _ := check_attr_names names in
           let dim_pos := find_dim_pos names 0 in
           let! x :=
             if (dim_pos =? -1)%Z then Ok x
             else let! v := rdZ attrib dim_pos in set_attrib x "dim" v in
           set_others names attrib 0 dim_pos x
       end.

(** src/slice.c:384-395, the loop over the attributes *)
Fixpoint restored_loop (tags : list string) : bool :=
  match tags with
  | [] => false
  | t :: tags => if streq t "names" then restored_loop tags else true
  end.

(** src/slice.c:370-396 [vec_is_restored]: [meth] is whether [s3_find_method]
    found a [`[`] method *)
Definition vec_is_restored (meth : bool) (tags : list string) : bool :=
  if meth then true
  else match tags with [] => false | _ => restored_loop tags end.

(** ** Preserved objects *)

(** The dictionary of src/rlang/obj.c:6, from objects (numbers) to the count
    stored in the first cell of the stack (src/rlang/obj.c:73-82).  The hash
    table itself is the subject of another model. *)
Notation precious := (list (nat * Z)).
Fixpoint pd_get (d : precious) (x : nat) : option Z :=
  match d with
  | [] => None
  | (y, n) :: d => if y =? x then Some n else pd_get d x
  end.
Fixpoint pd_del (d : precious) (x : nat) : precious :=
  match d with
  | [] => []
  | (y, n) :: d => if y =? x then pd_del d x else (y, n) :: pd_del d x
  end.
Definition pd_put (d : precious) (x : nat) (n : Z) : precious := (x, n) :: pd_del d x.

(** src/rlang/obj.c:85-89 [push_precious] *)
Definition push_precious (n : Z) : res Z :=
  if (n =? int_max_vu)%Z then UB "int overflow" else Ok (n + 1)%Z.
(** src/rlang/obj.c:92-96 [pop_precious] *)
Definition pop_precious (n : Z) : res Z :=
  if (n =? int_min_vu)%Z then UB "int overflow" else Ok (n - 1)%Z.

(** src/rlang/obj.c:37-50 [_r_preserve], with the local list in use *)
Definition r_preserve (d : precious) (x : nat) : res precious :=
  let stack := match pd_get d x with None => 0%Z | Some n => n end in
  let! n := push_precious stack in
  Ok (pd_put d x n).

(** src/rlang/obj.c:52-70 [_r_unpreserve] *)
Definition r_unpreserve (d : precious) (x : nat) : res precious :=
  match pd_get d x with
  | None => Err "Can't unpreserve `x` because it was not being preserved."
  | Some stack =>
      let! n := pop_precious stack in
      if (n <? 0)%Z then Err "`n` unexpectedly < 0."
      else if (n =? 0)%Z then Ok (pd_del d x)
      else Ok (pd_put d x n)
  end.

Inductive pop := Preserve (x : nat) | Unpreserve (x : nat).

(** A sequence of calls, [src/rlang/obj.c:37-70] *)
Fixpoint run_precious (ops : list pop) (d : precious) : res precious :=
  match ops with
  | [] => Ok d
  | Preserve x :: ops => let! d := r_preserve d x in run_precious ops d
  | Unpreserve x :: ops => let! d := r_unpreserve d x in run_precious ops d
  end.
