(** * Model: linked lists of nodes on a heap

    src/rlang/attrib.c, src/rlang/node.c and [node_compact_d()] of
    src/utils.c.  A node is a cell of a growing heap and is named by its
    position there; NULL is [None].  Every write goes to the heap, so that
    lists that share cells are changed together, as in C.  Not modelled:
    garbage collection, the object bit, the difference between pairlists and
    calls, and cdrs that are not pairlists. *)
From Verif Require Import Base.

Inductive val := VNull | VNode (a : nat) | VObj (z : Z).
#[global] Instance val_dec : EqDecision val.
Proof. solve_decision. Defined.

Notation ptr := (option nat).
Notation sym := (option Z).
Record node := Node { n_tag : sym; n_car : val; n_cdr : ptr }.
Notation heap := (list node).

(** ** R's accessors

    All accessors give NULL for NULL; writing to NULL is an R error ("bad
    value"); a dangling pointer is undefined. *)
Definition node_car (h : heap) (p : ptr) : res val :=
  match p with None => Ok VNull | Some a => let! n := rd h a in Ok (n_car n) end.
Definition node_cdr (h : heap) (p : ptr) : res ptr :=
  match p with None => Ok None | Some a => let! n := rd h a in Ok (n_cdr n) end.
Definition node_tag (h : heap) (p : ptr) : res sym :=
  match p with None => Ok None | Some a => let! n := rd h a in Ok (n_tag n) end.
Definition poke_car (h : heap) (p : ptr) (v : val) : res heap :=
  match p with
  | None => Err "bad value"
  | Some a => let! n := rd h a in wr h a (Node (n_tag n) v (n_cdr n))
  end.
Definition poke_cdr (h : heap) (p : ptr) (q : ptr) : res heap :=
  match p with
  | None => Err "bad value"
  | Some a => let! n := rd h a in wr h a (Node (n_tag n) (n_car n) q)
  end.
Definition poke_tag (h : heap) (p : ptr) (t : sym) : res heap :=
  match p with
  | None => Err "bad value"
  | Some a => let! n := rd h a in wr h a (Node t (n_car n) (n_cdr n))
  end.
(** [r_new_node] (Rf_cons()) *)
Definition new_node (h : heap) (v : val) (q : ptr) : heap * ptr :=
  (h ++ [Node None v q], Some (length h)).

(** ** Copies of the first part of a list *)

(** src/rlang/attrib.c:17-51 [r_pairlist_clone_until]: the loop.  [fuel]
    bounds the number of steps; the callers give more than there are cells. *)
Fixpoint clone_until_loop (fuel : nat) (h : heap) (sentinel nd parent cur : ptr)
  : res (heap * ptr * ptr) :=
  match fuel with
  | O => Err "out of fuel"
  | S fuel =>
      if bool_decide (cur = sentinel) then Ok (h, nd, parent)
      else if bool_decide (cur = None) then Ok (h, None, None)
      else
        let! tag := node_tag h cur in
        let! v := node_car h cur in
        let! q := node_cdr h cur in
        let '(h, cur) := new_node h v q in
        let! h := poke_tag h cur tag in
        let! (h, nd) :=
          if bool_decide (parent = None) then Ok (h, cur)
          else let! h := poke_cdr h parent cur in Ok (h, nd) in
        let! next := node_cdr h cur in
        clone_until_loop fuel h sentinel nd cur next
  end.
(** src/rlang/attrib.c:17-51 [r_pairlist_clone_until]; the result is the
    heap, the list and [*parent_out]. *)
Definition pairlist_clone_until (h : heap) (nd sentinel : ptr) : res (heap * ptr * ptr) :=
  clone_until_loop (S (length h)) h sentinel nd None nd.

(** src/rlang/attrib.c:54-63 [r_attrs_set_at] *)
Definition attrs_set_at (h : heap) (attrs nd : ptr) (value : val) : res (heap * ptr) :=
  let! sentinel := node_cdr h nd in
  let! (h, attrs, new) := pairlist_clone_until h attrs sentinel in
  let! h := poke_car h new value in
  Ok (h, attrs).

(** src/rlang/attrib.c:64-79 [r_attrs_zap_at] *)
Definition attrs_zap_at (h : heap) (attrs nd : ptr) : res (heap * ptr) :=
  let! (h, attrs, new) := pairlist_clone_until h attrs nd in
  if bool_decide (new = None) then
    let! attrs := node_cdr h attrs in Ok (h, attrs)
  else
    let! q := node_cdr h nd in
    let! h := poke_cdr h new q in
    Ok (h, attrs).

(** ** Objects with attributes *)
Record obj := Obj { o_data : Z; o_attrib : ptr }.
Record state := St { nodes : heap; objs : list obj }.

(** [r_poke_attrib] (SET_ATTRIB()) *)
Definition poke_attrib (os : list obj) (x : nat) (attrs : ptr) : res (list obj) :=
  let! o := rd os x in wr os x (Obj (o_data o) attrs).

(** src/rlang/attrib.c:80-91 [r_clone2]; [r_clone] is called on an object
    without attributes and copies its data only. *)
Definition clone2 (os : list obj) (x : nat) : res (list obj * nat) :=
  let! o := rd os x in
  let attrs := o_attrib o in
  let! os := poke_attrib os x None in
  let! o := rd os x in
  let out := length os in
  let os := os ++ [o] in
  let! os := poke_attrib os x attrs in
  let! os := poke_attrib os out attrs in
  Ok (os, out).

(** src/rlang/attrib.c:93-125 [r_attrib_set]: the loop over the attributes.
    [None] means that the tag was not found. *)
Fixpoint attrib_set_loop (fuel : nat) (h : heap) (attrs : ptr) (tag : sym) (value : val)
    (nd : ptr) : res (option (heap * ptr)) :=
  match fuel with
  | O => Err "out of fuel"
  | S fuel =>
      if bool_decide (nd = None) then Ok None
      else
        let! t := node_tag h nd in
        if bool_decide (t = tag) then
          let! r := if bool_decide (value = VNull) then attrs_zap_at h attrs nd
                    else attrs_set_at h attrs nd value in
          Ok (Some r)
        else
          let! nd := node_cdr h nd in
          attrib_set_loop fuel h attrs tag value nd
  end.
(** src/rlang/attrib.c:93-125 [r_attrib_set].  The new node first has [out]
    as its car; the model uses NULL, since the car is written over at once. *)
Definition attrib_set (s : state) (x : nat) (tag : sym) (value : val) : res (state * nat) :=
  let! o := rd (objs s) x in
  let attrs := o_attrib o in
  let! (os, out) := clone2 (objs s) x in
  let! r := attrib_set_loop (S (length (nodes s))) (nodes s) attrs tag value attrs in
  match r with
  | Some (h, attrs) =>
      let! os := poke_attrib os out attrs in
      Ok (St h os, out)
  | None =>
      if bool_decide (value = VNull) then Ok (St (nodes s) os, out)
      else
        let '(h, attrs) := new_node (nodes s) VNull attrs in
        let! h := poke_tag h attrs tag in
        let! h := poke_car h attrs value in
        let! os := poke_attrib os out attrs in
        Ok (St h os, out)
  end.

(** src/rlang/attrib.c:3-8 [r_attrib_push] *)
Definition attrib_push (s : state) (x : nat) (tag : sym) (value : val) : res (state * ptr) :=
  let! o := rd (objs s) x in
  let '(h, attrs) := new_node (nodes s) value (o_attrib o) in
  let! h := poke_tag h attrs tag in
  let! os := poke_attrib (objs s) x attrs in
  Ok (St h os, attrs).

(** ** Lists changed in place *)

(** src/utils.c:742-757 [node_compact_d]: the loop. *)
Fixpoint compact_loop (fuel : nat) (h : heap) (prev nd : ptr) : res heap :=
  match fuel with
  | O => Err "out of fuel"
  | S fuel =>
      if bool_decide (nd = None) then Ok h
      else
        let! v := node_car h nd in
        let! (h, prev) :=
          if bool_decide (v = VNull) then
            let! q := node_cdr h nd in
            let! h := poke_cdr h prev q in
            Ok (h, prev)
          else Ok (h, nd) in
        let! nd := node_cdr h nd in
        compact_loop fuel h prev nd
  end.
(** src/utils.c:742-757 [node_compact_d] *)
Definition node_compact_d (h : heap) (nd : ptr) : res (heap * ptr) :=
  let '(h, handle) := new_node h VNull nd in
  let! h := compact_loop (S (length h)) h handle nd in
  let! out := node_cdr h handle in
  Ok (h, out).

(** src/rlang/node.c:66-82 [r_pairlist_rev]: the loop. *)
Fixpoint rev_loop (fuel : nat) (h : heap) (prev tail : ptr) : res (heap * ptr) :=
  match fuel with
  | O => Err "out of fuel"
  | S fuel =>
      if bool_decide (tail = None) then Ok (h, prev)
      else
        let! next := node_cdr h tail in
        let! h := poke_cdr h tail prev in
        let prev := tail in
        rev_loop fuel h prev next
  end.
(** src/rlang/node.c:66-82 [r_pairlist_rev] *)
Definition pairlist_rev (h : heap) (nd : ptr) : res (heap * ptr) :=
  if bool_decide (nd = None) then Ok (h, nd)
  else rev_loop (S (length h)) h None nd.

(** src/rlang/node.c:55-64 [r_pairlist_find] *)
Fixpoint find_loop (fuel : nat) (h : heap) (nd : ptr) (tag : sym) : res ptr :=
  match fuel with
  | O => Err "out of fuel"
  | S fuel =>
      if bool_decide (nd = None) then Ok None
      else
        let! t := node_tag h nd in
        if bool_decide (t = tag) then Ok nd
        else let! nd := node_cdr h nd in find_loop fuel h nd tag
  end.
Definition pairlist_find (h : heap) (nd : ptr) (tag : sym) : res ptr :=
  find_loop (S (length h)) h nd tag.

(** src/rlang/node.c:4-28 [r_new_pairlist]; the result is the heap, the list
    and the node that is stored in [*tail] ([None] where nothing is stored). *)
Definition new_pairlist (h : heap) (args : list (sym * val)) (n : nat)
  : res (heap * ptr * ptr) :=
  let '(h, shelter) := new_node h VNull None in
  let! (h, nd) :=
    for_ 0 n (fun i '(h, nd) =>
      let! (tag, v) := rd args i in
      let '(h, cdr) := new_node h v None in
      let! h := poke_tag h cdr tag in
      let! h := poke_cdr h nd cdr in
      Ok (h, cdr)) (h, shelter) in
  let tail := if (0 <? n)%nat then nd else None in
  let! out := node_cdr h shelter in
  Ok (h, out, tail).

(** ** Copies of trees of nodes *)

(** src/rlang/node.c:40-49 [r_node_tree_clone]: the loop over the copied
    cells, where [rec] is the recursive call. *)
Fixpoint tree_walk (rec : heap -> val -> res (heap * val)) (fuel : nat) (h : heap) (rest : ptr)
  : res heap :=
  match fuel with
  | O => Err "out of fuel"
  | S fuel =>
      if bool_decide (rest = None) then Ok h
      else
        let! head := node_car h rest in
        let! h :=
          match head with
          | VNode _ => let! (h, v) := rec h head in poke_car h rest v
          | _ => Ok h
          end in
        let! rest := node_cdr h rest in
        tree_walk rec fuel h rest
  end.
(** src/rlang/node.c:32-53 [r_node_tree_clone].  [r_clone] of a list of nodes
    copies the cells of the list and shares the cars, as
    [r_pairlist_clone_until] does with NULL as its sentinel. [fuel] bounds
    the depth of the recursion and the lengths of the lists. *)
Fixpoint node_tree_clone (fuel : nat) (h : heap) (x : val) : res (heap * val) :=
  match fuel with
  | O => Err "out of fuel"
  | S fuel =>
      match x with
      | VNode a =>
          let! (h, x, _) := clone_until_loop (S fuel) h None (Some a) None (Some a) in
          let! h := tree_walk (node_tree_clone fuel) (S fuel) h x in
          Ok (h, match x with Some a => VNode a | None => VNull end)
      | _ => Ok (h, x)
      end
  end.
