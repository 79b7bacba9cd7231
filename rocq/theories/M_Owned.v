(** * Model: assignment in memory and who owns it (src/slice-assign.c, src/owned.h) *)
From Verif Require Import Base.

(** Objects in memory: a place is an index.  [cells] are the data of a vector
    ([KVec]) or the places of the elements of a list, the columns of a data frame
    or the fields of a record.  Attributes but names, dims and row names are one
    value that is not looked into. *)
Inductive kind := KVec | KList | KDf | KRcrd.
Record obj := Obj { o_kind : kind; o_cells : list nat; o_attr : option Z }.
Notation heap := (list obj).

Definition kind_eqb (a b : kind) : bool :=
  match a, b with KVec, KVec | KList, KList | KDf, KDf | KRcrd, KRcrd => true | _, _ => false end.
(** [r_typeof() == R_TYPE_list] *)
Definition is_list (k : kind) : bool := negb (kind_eqb k KVec).

(** src/rlang/obj.h:75-78 [r_clone]: the elements of a list are not copied *)
Definition r_clone (h : heap) (x : nat) : res (heap * nat) :=
  let! o := rd h x in
  Ok (h ++ [o], length h).

Section owned.
  (** [MAYBE_REFERENCED()]: whether the count of references of an object is not 0 *)
  Context (mr : heap -> nat -> bool).
  (** The attributes of [new_data_frame(x)] *)
  Context (df_attr : Z).

  (** src/utils.c:1308-1314 [r_clone_referenced] *)
  Definition r_clone_referenced (h : heap) (x : nat) : res (heap * nat) :=
    if mr h x then r_clone h x else Ok (h, x).
  (** src/owned.h:9-11 [vec_owned] *)
  Definition vec_owned (h : heap) (x : nat) : bool := negb (mr h x).
  (** src/owned.h:15-21 [vec_clone_referenced] *)
  Definition vec_clone_referenced (h : heap) (x : nat) (owned : bool) : res (heap * nat) :=
    if owned then Ok (h, x) else r_clone_referenced h x.

  (** src/proxy.c:6-37 [vec_proxy], 132-139 [vec_proxy_invoke].  The method of records is
      R/type-rcrd.R:39-41 [vec_proxy.vctrs_rcrd], that is [new_data_frame(x)]
      (src/type-data-frame.c:54): as the argument of the method holds [x], it is
      cloned; its fields are not.  Methods of other classes are left out. *)
  Definition vec_proxy (h : heap) (x : nat) : res (heap * nat) :=
    let! o := rd h x in
    match o_kind o with
    | KRcrd => Ok (h ++ [Obj KDf (o_cells o) (Some df_attr)], length h)
    | _ => Ok (h, x)
    end.

  (** src/proxy-restore.c:62-157 [vec_restore_default]: names, dims and row names, that
      stay those of [x], are left out *)
  Definition vec_restore_default (h : heap) (x to : nat) (owned : bool) : res (heap * nat) :=
    let! oto := rd h to in
    match o_attr oto with
    | None => Ok (h, x)
    | Some a =>
        let! (h, x) := vec_clone_referenced h x owned in
        let! o := rd h x in
        let! h := wr h x (Obj (o_kind o) (o_cells o) (Some a)) in
        Ok (h, x)
    end.
  (** src/proxy-restore.c:27-51 [vec_restore_4], 174-229 [vec_bare_df_restore], both
      without recursion.  The method of records is R/type-rcrd.R:43-47: the argument of
      the method holds [x], so that its attributes are set in a copy. *)
  Definition vec_restore (h : heap) (x to : nat) (owned : bool) : res (heap * nat) :=
    let! oto := rd h to in
    let! o := rd h x in
    match o_kind oto with
    | KRcrd => Ok (h ++ [Obj KRcrd (o_cells o) (o_attr oto)], length h)
    | KDf =>
        if is_list (o_kind o) then vec_restore_default h x to owned
        else Err "Attempt to restore data frame"
    | _ => vec_restore_default h x to owned
    end.

  (** src/slice-assign.c:188-210 [ASSIGN_INDEX], 262-282 [ASSIGN_BARRIER_INDEX].  The
      locations are from 0; [None] is a missing location. *)
  Definition assign_step (index : list (option nat)) (value out : nat) (i : nat) (h : heap) : res heap :=
    let! j := rd index i in
    match j with
    | None => Ok h
    | Some j =>
        let! ov := rd h value in
        let! c := rd (o_cells ov) i in
        let! o := rd h out in
        let! cells := wr (o_cells o) j c in
        wr h out (Obj (o_kind o) cells (o_attr o))
    end.
  Definition assign_index (h : heap) (x : nat) (index : list (option nat)) (value : nat) (owned : bool) : res (heap * nat) :=
    let! ov := rd h value in
    if negb (length index =? length (o_cells ov)) then Err "`value` should have been recycled to fit `x`."
    else
      let! (h, out) := vec_clone_referenced h x owned in
      let! h := for_ 0 (length index) (assign_step index value out) h in
      Ok (h, out).

  (** src/slice-assign.c:340-379 [df_assign], the body of its loop and the function;
      [rec] is [vec_proxy_assign_opts] and [recursive] is not set *)
  Definition df_step (rec : heap -> nat -> nat -> res (heap * nat)) (owned : bool) (out value i : nat) (h : heap) : res heap :=
    let! o := rd h out in
    let! out_elt := rd (o_cells o) i in
    let! ov := rd h value in
    let! value_elt := rd (o_cells ov) i in
    let! (h, proxy_elt) := vec_proxy h out_elt in
    let! (h, assigned) := rec h proxy_elt value_elt in
    let! (h, assigned) := vec_restore h assigned out_elt owned in
    let! o := rd h out in
    let! cells := wr (o_cells o) i assigned in
    wr h out (Obj (o_kind o) cells (o_attr o)).
  Definition df_assign (rec : heap -> nat -> nat -> res (heap * nat)) (h : heap) (x value : nat) (owned : bool) : res (heap * nat) :=
    let! (h, out) := vec_clone_referenced h x owned in
    let! o := rd h out in
    let n := length (o_cells o) in
    let! ov := rd h value in
    if negb (length (o_cells ov) =? n) then Err "Can't assign columns to df"
    else
      let! h := for_ 0 n (df_step rec owned out value) h in
      Ok (h, out).

  (** src/slice-assign.c:141-186 [vec_proxy_assign_opts] without names, 76-95
      [vec_assign_switch].  Fallbacks and shaped vectors are left out.  [fuel] is the
      room on the stack. *)
  Fixpoint vec_proxy_assign (fuel : nat) (index : list (option nat)) (owned : bool) (h : heap) (proxy value : nat) : res (heap * nat) :=
    match fuel with
    | O => Err "stack overflow"
    | Datatypes.S fuel =>
        let! (h, value) := vec_proxy h value in
        let! o := rd h proxy in
        let! ov := rd h value in
        if negb (Bool.eqb (is_list (o_kind o)) (is_list (o_kind ov))) then Err "`proxy` incompatible with `value` proxy"
        else
          match o_kind o with
          | KVec | KList => assign_index h proxy index value owned
          | KDf => df_assign (vec_proxy_assign fuel index owned) h proxy value owned
          | KRcrd => Err "scalar type"
          end
    end.

  (** src/slice-assign.c:33-37 of [vec_assign_opts]: [index] has been made locations,
      and [value] has been cast and recycled *)
  Definition vec_assign (fuel : nat) (h : heap) (x : nat) (index : list (option nat)) (value : nat) : res (heap * nat) :=
    let! (h, proxy) := vec_proxy h x in
    let owned := vec_owned h proxy in
    let! (h, proxy) := vec_proxy_assign fuel index owned h proxy value in
    vec_restore h proxy x owned.
End owned.
