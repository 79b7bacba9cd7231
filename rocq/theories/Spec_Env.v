(** * Specification for environments, formulas and lazy vectors *)
From Verif Require Import Base M_Env.
From stdpp Require Import list strings.
Open Scope nat_scope.

(** The environments from one up to the empty environment. *)
Inductive chain (parent : nat -> nat) : nat -> list nat -> Prop :=
  | chain_empty : chain parent 0 [0]
  | chain_step e l : e <> 0 -> chain parent (parent e) l -> chain parent e (e :: l).

(** The part of a list up to an element, with it. *)
Fixpoint upto (t : nat) (l : list nat) : list nat :=
  match l with
  | [] => []
  | e :: l => if decide (e = t) then [e] else e :: upto t l
  end.

(** The first value found, the empty environment not being looked at. *)
Definition first_bound {V} (find : nat -> option V) (l : list nat) : option V :=
  head (omap find (filter (fun e => e <> 0) l)).

(** The type of what a name is bound to. *)
Definition type_of_binding {V} (b : option (binding V)) : btype :=
  match b with Some (BAct _) => TActive | Some (BProm _) => TPromise | _ => TValue end.

(** [e] has the bindings of [env] and, for other names, those of [from]. *)
Definition coalesced {V} (env from : frame V) (e : frame V) : Prop :=
  forall k, env_get e k = match env_get env k with Some b => Some b | None => env_get from k end.

(** A plain vector behaves like this; the flag says whether the elements were
    used before. *)
Definition uses {S} (o : @lop S) : bool :=
  match o with LPtrOrNull | LIsMat => false | _ => true end.
Definition plain_op {S} (o : @lop S) (v : list S) (used : bool) : res (@lout S) * list S :=
  match o with
  | LLength => (Ok (ONum (length v)), v)
  | LElt i => (match v !! i with Some s => Ok (OElt s) | None => UB "out-of-bounds read" end, v)
  | LSet i s => if decide (i < length v) then (Ok OUnit, <[i := s]> v) else (UB "out-of-bounds write", v)
  | LPtr => (Ok (OData v), v)
  | LPtrOrNull => (Ok (if used then OData v else ONull), v)
  | LIsMat => (Ok (OBool used), v)
  end.
Fixpoint plain_run {S} (ops : list (@lop S)) (v : list S) (used : bool) : list (res (@lout S)) :=
  match ops with
  | [] => []
  | o :: ops => fst (plain_op o v used) :: plain_run ops (snd (plain_op o v used)) (used || uses o)
  end.
