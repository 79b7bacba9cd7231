(** * Specification of intervals (C31-C33): points, half-open intervals, groups,
      complements and containers.  Nothing here mentions orders or loops. *)
From Verif Require Import Base M_Double M_Scalar M_Object M_Proxy Spec_Order.
From Coq Require Import Sorting.Sorted.

(** ** Points *)
(** A point is a row.  Elements of a type compare by value, missing ones first. *)
Definition elt_index (e : elt) : Z :=
  match e with ELgl _ => 0 | EInt _ => 1 | EDbl _ => 2 | ECpl _ _ => 3 | EChr _ => 4 | ERaw _ => 5 | ELst _ => 6 end%Z.
Definition elt_vcmp (x y : elt) : comparison :=
  match x, y with
  | ELgl a, ELgl b | EInt a, EInt b => int_vcmp false a b
  | EDbl a, EDbl b => dbl_vcmp false false a b
  | EChr a, EChr b => chr_vcmp false a b
  | _, _ => (elt_index x ?= elt_index y)%Z
  end.
(** Rows compare lexicographically. *)
Fixpoint row_vcmp (r s : list elt) : comparison :=
  match r, s with
  | [], [] => Eq
  | [], _ :: _ => Lt
  | _ :: _, [] => Gt
  | x :: r', y :: s' => cmp_then (elt_vcmp x y) (row_vcmp r' s')
  end.

(** ** Intervals on any ordered points *)
Section interval.
  Context {V : Type} (cmp : V -> V -> comparison).
  Definition vlt (x y : V) : Prop := cmp x y = Lt.
  Definition vle (x y : V) : Prop := cmp x y <> Gt.
  (** [p] is in [[s, e)]. *)
  Definition within (s e p : V) : Prop := vle s p /\ vlt p e.

  (** The start and end at each location. *)
  Context (S E : Z -> V).
  (** [p] is in one of the intervals at the locations [l]. *)
  Definition covered (l : list Z) (p : V) : Prop := exists a, a ∈ l /\ within (S a) (E a) p.

  (** ** Groups *)
  (** What lies between two groups: abutting groups would have been merged if
      [abutting], overlapping ones always. *)
  Definition apart (abutting : bool) (e s : V) : Prop := if abutting then vlt e s else vle e s.
  (** Group [(a, b, mem)] starts where [a] starts, ends where [b] ends and has
      the members [mem].  It is the smallest interval around them, and could
      not be cut at a point: if [abutting], each of its points is in a member;
      if not, each inner point is an inner point of a member. *)
  Definition is_group (abutting : bool) (g : Z * Z * list Z) : Prop :=
    let '(a, b, mem) := g in
    a ∈ mem /\ b ∈ mem /\
    (forall m, m ∈ mem -> vle (S a) (S m) /\ vle (E m) (E b)) /\
    (forall p, within (S a) (E b) p -> covered mem p) /\
    (abutting = false -> forall p, vlt (S a) p -> vlt p (E b) -> exists m, m ∈ mem /\ vlt (S m) p /\ vlt p (E m)).
  (** The groups are a partition of the locations [l], from left to right. *)
  Definition are_groups (abutting : bool) (l : list Z) (gs : list (Z * Z * list Z)) : Prop :=
    concat (map snd gs) ≡ₚ l /\ Forall (is_group abutting) gs /\
    StronglySorted (fun g h => apart abutting (E g.1.2) (S h.1.1)) gs.

  (** ** Complement *)
  (** [out] (starts and ends) has exactly the points not in the intervals at
      [l], between the bounds.  A missing bound is the smallest start, or the
      largest end.  Its intervals are not empty, and do not touch. *)
  Definition above (lower : option V) (l : list Z) (p : V) : Prop :=
    match lower with Some v => vle v p | None => exists a, a ∈ l /\ vle (S a) p end.
  Definition below (upper : option V) (l : list Z) (p : V) : Prop :=
    match upper with Some v => vlt p v | None => exists a, a ∈ l /\ vlt p (E a) end.
  Definition is_complement (lower upper : option V) (l : list Z) (out : list (V * V)) : Prop :=
    (forall p, (exists o, o ∈ out /\ within o.1 o.2 p) <-> above lower l p /\ below upper l p /\ ~ covered l p) /\
    Forall (fun o => vlt o.1 o.2) out /\ StronglySorted (fun o q => vlt o.2 q.1) out.

  (** ** Containers *)
  Definition contains (a b : Z) : Prop := vle (S a) (S b) /\ vle (E b) (E a).
  Definition are_containers (l out : list Z) : Prop :=
    (forall a, a ∈ out -> a ∈ l) /\ (forall b, b ∈ l -> exists a, a ∈ out /\ contains a b) /\
    StronglySorted (fun a b => vlt (S a) (S b) /\ vlt (E a) (E b)) out /\
    (forall a b, a ∈ out -> b ∈ l -> contains b a -> cmp (S a) (S b) = Eq /\ cmp (E a) (E b) = Eq /\ (a <= b)%Z).
End interval.
