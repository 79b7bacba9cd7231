(** * Model: proxies of two vectors that are compared with each other
    (src/match-joint.c) and collation proxies (src/order-collate.c).

    A proxy is the list of its columns: [df_flatten()] and
    [vec_proxy_unwrap()] of the proxies of columns give all their columns one
    after the other (C59).  [vec_c()] of two vectors of one type is their
    concatenation. *)
From Verif Require Import Base.

Section joint.
  Context {A B : Type}.
  (** [vec_proxy_order()] of an element of a type whose elements are
      independent, of a vector of another type, and of a data frame whose
      class has a method *)
  Context (p_ind : Z -> A -> B).
  Context (p_dep : Z -> list A -> list (list B)).

  (** A vector with its type and class, and whether the class is one of those
      listed as independent; a data frame *)
  Inductive jcol := JVec (ty : Z) (dep : bool) (v : list A) | JDf (method : bool) (cols : list jcol).
  Context (p_method : list jcol -> list (list B)).

  (** src/proxy.c:85-96 [vec_proxy_order] *)
  Fixpoint vec_proxy_order (x : jcol) : list (list B) :=
    match x with
    | JVec ty false v => [map (p_ind ty) v]
    | JVec ty true v => p_dep ty v
    | JDf true cols => p_method cols
    | JDf false cols => concat (map vec_proxy_order cols)
    end.

  (** [vec_slice_unsafe()] by [compact_seq(start, size)] *)
  Definition slice_seq (start size : nat) (p : list (list B)) : list (list B) :=
    map (fun col => take size (drop start col)) p.

  (** src/match-joint.c:271-280 [vec_joint_proxy_order_independent] *)
  Definition joint_independent (ty : Z) (v w : list A) : list (list B) * list (list B) :=
    (vec_proxy_order (JVec ty false v), vec_proxy_order (JVec ty false w)).
  (** src/match-joint.c:281-318 [vec_joint_proxy_order_dependent] *)
  Definition joint_dependent (ty : Z) (v w : list A) : list (list B) * list (list B) :=
    let x_size := length v in
    let y_size := length w in
    let combined := JVec ty true (v ++ w) in
    let proxy := vec_proxy_order combined in
    (slice_seq 0 x_size proxy, slice_seq x_size y_size proxy).
  (** src/match-joint.c:237-268 [vec_joint_proxy_order], 320-354
      [vec_joint_proxy_order_s3], 357-387 [df_joint_proxy_order]; the loop
      walks both lists of columns *)
  Fixpoint vec_joint_proxy_order (x y : jcol) {struct x} : res (list (list B) * list (list B)) :=
    match x, y with
    | JVec tx dep v, JVec ty _ w =>
        if negb (tx =? ty)%Z then Err "`x` and `y` should have the same type."
        else Ok (if dep then joint_dependent tx v w else joint_independent tx v w)
    | JDf _ xs, JDf _ ys =>
        if negb (length xs =? length ys) then Err "`x` and `y` must have the same number of columns."
        else
          (fix go (xs ys : list jcol) (out_x out_y : list (list B)) : res (list (list B) * list (list B)) :=
             match xs, ys with
             | [], _ => Ok (out_x, out_y)
             | x :: xs, y :: ys =>
                 let! (px, py) := vec_joint_proxy_order x y in
                 go xs ys (out_x ++ px) (out_y ++ py)
             | _ :: _, [] => UB "read past the end of a list"
             end) xs ys [] []
    | _, _ => Err "`x` and `y` should have the same type."
    end.
End joint.
Arguments jcol A : clear implicits.

(** ** Collation *)

(** A column of a proxy: a character vector or another vector *)
Inductive ccol {S : Type} := CChr (v : list S) | COther (id : Z).
Arguments ccol S : clear implicits.
Inductive cproxy {S : Type} := CCol (c : ccol S) | CDf (cols : list (ccol S)).
Arguments cproxy S : clear implicits.

Section collate.
  Context {S : Type}.
  (** [chr_proxy_collate]; [None] is a result that is no character vector *)
  Context (collate : list S -> option (list S)).
  (** src/order-collate.c:42-74 [chr_apply] *)
  Definition chr_apply (x : list S) : res (list S) :=
    match collate x with
    | None => Err "`chr_proxy_collate` must return a character vector."
    | Some out =>
        if negb (length x =? length out) then Err "`chr_proxy_collate` must return a vector of the same length"
        else Ok out
    end.
  (** src/order-collate.c:79-112 [df_apply] *)
  Definition df_apply (x : list (ccol S)) : res (list (ccol S)) :=
    let n_cols := length x in
    let! i := for_brk 0 n_cols (fun i _ =>
      let! col := rd x i in
      Ok (match col with CChr _ => Break i | COther _ => Next (i + 1) end)) 0 in
    if i =? n_cols then Ok x
    else
      for_ i (n_cols - i) (fun i out =>
        let! col := rd x i in
        match col with
        | COther _ => Ok out
        | CChr v => let! v := chr_apply v in wr out i (CChr v)
        end) x.
End collate.
(** src/order-collate.c:21-38 [proxy_apply_chr_proxy_collate]; [None] is NULL *)
Definition proxy_apply_chr_proxy_collate {S} (collate : option (list S -> option (list S))) (proxy : cproxy S)
  : res (cproxy S) :=
  match collate with
  | None => Ok proxy
  | Some collate =>
      match proxy with
      | CCol (CChr v) => let! v := chr_apply collate v in Ok (CCol (CChr v))
      | CCol (COther id) => Ok proxy
      | CDf cols => let! cols := df_apply collate cols in Ok (CDf cols)
      end
  end.
