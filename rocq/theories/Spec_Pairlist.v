(** * Specification: linked lists on a heap *)
From Verif Require Import Base M_Pairlist.

(** The cells at [al], in this order, make up the list that starts at [p];
    [cs] are its tags and values. *)
Inductive plist (h : heap) : ptr -> list nat -> list (sym * val) -> Prop :=
| plist_nil : plist h None [] []
| plist_cons a t v q al cs :
    h !! a = Some (Node t v q) ->
    plist h q al cs ->
    plist h (Some a) (a :: al) ((t, v) :: cs).

(** The attributes after one has been set: the first with this tag is
    replaced, or dropped for NULL; a new one comes first. *)
Inductive set_attr (tag : sym) (value : val) : list (sym * val) -> list (sym * val) -> Prop :=
| set_attr_replace c1 w c2 :
    Forall (fun c => c.1 <> tag) c1 -> value <> VNull ->
    set_attr tag value (c1 ++ (tag, w) :: c2) (c1 ++ (tag, value) :: c2)
| set_attr_drop c1 w c2 :
    Forall (fun c => c.1 <> tag) c1 -> value = VNull ->
    set_attr tag value (c1 ++ (tag, w) :: c2) (c1 ++ c2)
| set_attr_add cs :
    Forall (fun c => c.1 <> tag) cs -> value <> VNull ->
    set_attr tag value cs ((tag, value) :: cs)
| set_attr_none cs :
    Forall (fun c => c.1 <> tag) cs -> value = VNull ->
    set_attr tag value cs cs.

(** Trees of nodes as values *)
Inductive tree := TNull | TObj (z : Z) | TNode (t : sym) (car cdr : tree).
Definition of_ptr (p : ptr) : val := match p with None => VNull | Some a => VNode a end.
(** [v] is the tree [T], all cells of which are at positions from [lo] to
    below [hi] *)
Fixpoint rep (lo hi : nat) (h : heap) (v : val) (T : tree) : Prop :=
  match T with
  | TNull => v = VNull
  | TObj z => v = VObj z
  | TNode t car cdr =>
      exists a n, v = VNode a /\ lo <= a < hi /\ h !! a = Some n /\ n_tag n = t /\
        rep lo hi h (n_car n) car /\ rep lo hi h (of_ptr (n_cdr n)) cdr
  end.
Fixpoint height (T : tree) : nat :=
  match T with TNode _ a b => S (Nat.max (height a) (height b)) | _ => 1 end.
