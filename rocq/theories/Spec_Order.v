(** * Specification of ordering (C27, C28): how values compare, what an order
      vector and its group sizes are.  Nothing here mentions keys, radix
      passes, counting or insertion. *)
From Verif Require Import Base M_Double M_Scalar.
From Coq Require Import Sorting.Sorted.

(** Reverse a comparison when ordering in decreasing order. *)
Definition dir (decreasing : bool) (c : comparison) : comparison :=
  if decreasing then CompOpp c else c.
(** How a missing value compares to a present one. *)
Definition missing_vs_present (na_largest : bool) : comparison := if na_largest then Gt else Lt.

(** Ascending comparison of integers (and logicals). *)
Definition int_vcmp (na_largest : bool) (x y : Z) : comparison :=
  match (x =? NA_INTEGER)%Z, (y =? NA_INTEGER)%Z with
  | true, true => Eq
  | true, false => missing_vs_present na_largest
  | false, true => CompOpp (missing_vs_present na_largest)
  | false, false => (x ?= y)%Z
  end.

(** Ascending comparison of doubles: numbers by their value ([-0 = +0]),
    missing values at one end; NA is beyond NaN if they are distinguished. *)
Definition dbl_vcmp (na_largest nan_distinct : bool) (x y : dbl) : comparison :=
  match dbl_classify x, dbl_classify y with
  | DblNumber, DblNumber => (dbl_value x ?= dbl_value y)%Z
  | DblNumber, _ => CompOpp (missing_vs_present na_largest)
  | _, DblNumber => missing_vs_present na_largest
  | DblMissing, DblNan => if nan_distinct then missing_vs_present na_largest else Eq
  | DblNan, DblMissing => if nan_distinct then CompOpp (missing_vs_present na_largest) else Eq
  | DblMissing, DblMissing | DblNan, DblNan => Eq
  end.

(** Lexicographic comparison of byte strings. *)
Fixpoint bytes_vcmp (a b : list Z) : comparison :=
  match a, b with
  | [], [] => Eq
  | [], _ :: _ => Lt
  | _ :: _, [] => Gt
  | x :: a', y :: b' => match (x ?= y)%Z with Eq => bytes_vcmp a' b' | c => c end
  end.
Definition chr_vcmp (na_largest : bool) (x y : rstr) : comparison :=
  match x, y with
  | None, None => Eq
  | None, Some _ => missing_vs_present na_largest
  | Some _, None => CompOpp (missing_vs_present na_largest)
  | Some a, Some b => bytes_vcmp a b
  end.

(** First by one comparison, then by another. *)
Definition cmp_then (c d : comparison) : comparison := match c with Eq => d | _ => c end.

(** Complex numbers: by real, then by imaginary part; if one part is not a
    number, it stands for both. *)
Definition is_number (x : dbl) : bool := dbl_class_eqb (dbl_classify x) DblNumber.
Definition cpl_parts (z : dbl * dbl) : dbl * dbl :=
  match is_number z.1, is_number z.2 with
  | true, false => (z.2, z.2)
  | false, true => (z.1, z.1)
  | _, _ => z
  end.
Definition cpl_vcmp (na_largest nan_distinct : bool) (x y : dbl * dbl) : comparison :=
  cmp_then (dbl_vcmp na_largest nan_distinct (cpl_parts x).1 (cpl_parts y).1)
           (dbl_vcmp na_largest nan_distinct (cpl_parts x).2 (cpl_parts y).2).

(** The locations [1..n]. *)
Definition locs (n : nat) : list Z := map (fun i => (Z.of_nat i + 1)%Z) (seq 0 n).

(** [o] orders the locations [1..n] by [cmp], ties keep their original order. *)
Definition is_order (cmp : Z -> Z -> comparison) (n : nat) (o : list Z) : Prop :=
  o ≡ₚ locs n /\
  StronglySorted (fun a b => cmp a b = Lt \/ (cmp a b = Eq /\ (a < b)%Z)) o.

(** [gs] are the sizes of the groups of tied locations of the ordered [o]. *)
Definition is_group_sizes (cmp : Z -> Z -> comparison) (o : list Z) (gs : list nat) : Prop :=
  exists bs : list (list Z),
    concat bs = o /\ map length bs = gs /\ Forall (fun b => b <> []) bs /\
    Forall (fun b => forall x y, x ∈ b -> y ∈ b -> cmp x y = Eq) bs /\
    StronglySorted (fun b c => forall x y, x ∈ b -> y ∈ c -> cmp x y = Lt) bs.

(** The value at location [a] of a vector. *)
Definition at_loc {A} (d : A) (x : list A) (a : Z) : A := nth (Z.to_nat (a - 1)) x d.
Definition by_loc {A} (d : A) (cmp : A -> A -> comparison) (x : list A) (a b : Z) : comparison :=
  cmp (at_loc d x a) (at_loc d x b).
