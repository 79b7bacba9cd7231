(** * Specification: walking an object *)
From Verif Require Import Base M_Walk.

(** The children of an object and how they relate to it: its attributes if it
    has any, then its parts or elements. *)
Definition elt_rel (k : vkind) : rel := match k with KList => RListElt | KExpr => RExpressionElt | KChr => RCharacterElt end.
Definition attrib_child (a : sx) : list (rel * sx) := match a with XNull => [] | _ => [(RAttrib, a)] end.
Definition children_by (e : vkind -> rel) (x : sx) : list (rel * sx) :=
  match x with
  | XNull | XString _ => []
  | XAtom _ a => attrib_child a
  | XNode k a tag car cdr =>
      attrib_child a ++
      match k with
      | KClosure => [(RFunctionEnv, tag); (RFunctionFmls, car); (RFunctionBody, cdr)]
      | KEnv => [(REnvHashtab, tag); (REnvFrame, car); (REnvEnclos, cdr)]
      | KPromise => [(RPromiseEnv, tag); (RPromiseValue, car); (RPromiseExpr, cdr)]
      | KPairlist | KCall | KDots => [(RNodeTag, tag); (RNodeCar, car); (RNodeCdr, cdr)]
      end
  | XPointer a tag prot => attrib_child a ++ [(RPointerTag, tag); (RPointerProt, prot)]
  | XVector k a elts => attrib_child a ++ map (fun c => (e k, c)) elts
  end.
Definition children := children_by elt_rel.

(** The visits of an object at depth [d]: once if it has no children; else before
    and after its children, or only before if it is skipped.  [i] is the number of
    elements yet to be visited. *)
Definition elts_left (x : sx) (n : Z) : Z := match x with XVector _ _ (_ :: _) => n | _ => -1 end.
Definition size_of (x : sx) : Z := match x with XVector _ _ l => Z.of_nat (length l) | _ => 0 end.
Definition at_ (x : sx) (d : Z) (parent : sx) (r : rel) (dr : dir) : visit :=
  Visit x d parent r match dr with Incoming => elts_left x (size_of x) | Outgoing => elts_left x 0 | Leaf => -1 end dr.
Inductive walks (e : vkind -> rel) (skip : visit -> bool) : Z -> sx -> rel -> sx -> list visit -> Prop :=
| w_leaf d parent r x : children_by e x = [] -> walks e skip d parent r x [at_ x d parent r Leaf]
| w_skip d parent r x : children_by e x <> [] -> skip (at_ x d parent r Incoming) = true ->
    walks e skip d parent r x [at_ x d parent r Incoming]
| w_inner d parent r x vss : children_by e x <> [] -> skip (at_ x d parent r Incoming) = false ->
    Forall2 (fun rc vs => walks e skip (d + 1) x rc.1 rc.2 vs) (children_by e x) vss ->
    walks e skip d parent r x (at_ x d parent r Incoming :: concat vss ++ [at_ x d parent r Outgoing]).

(** Objects with children are nested at most [n] deep. *)
Inductive nested : nat -> sx -> Prop :=
| n_leaf n x : children x = [] -> nested n x
| n_inner n x : children x <> [] -> Forall (nested n) (map snd (children x)) -> nested (S n) x.
