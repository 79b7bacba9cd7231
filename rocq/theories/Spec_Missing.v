(** * Specification of missing and complete detection *)
From Verif Require Import Base M_Double M_Scalar M_Object M_Proxy Spec_Value.

(** A row is missing when every column is; it is incomplete when some column is. *)
Definition row_missing (r : list elt) : Prop := Forall missing_sem r.
Definition row_complete (r : list elt) : Prop := Forall (fun e => ~ missing_sem e) r.

(** [out] is the logical vector that is TRUE exactly where [P] holds. *)
Definition indicates (n : nat) (P : nat -> Prop) (out : list Z) : Prop :=
  length out = n /\ forall i, i < n -> (P i /\ out !! i = Some 1%Z) \/ (~ P i /\ out !! i = Some 0%Z).

(** [out] lists exactly the (1-based) locations satisfying [P], in increasing order. *)
Definition locates (n : nat) (P : nat -> Prop) (out : list Z) : Prop :=
  (forall k, k ∈ out <-> exists i, k = (Z.of_nat i + 1)%Z /\ i < n /\ P i) /\
  (forall a b x y, a < b -> out !! a = Some x -> out !! b = Some y -> (x < y)%Z).
