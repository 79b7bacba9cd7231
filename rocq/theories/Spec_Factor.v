(** * Specification: factors and their labels *)
From Verif Require Import Base M_Double M_Scalar M_Factor Spec_Value.

(** What a code means: missing, or the label at that position of the levels
    (which may itself be the string NA). *)
Inductive label := Missing | Label (s : rstr).
Definition label_of (levels : list rstr) (code : Z) : option label :=
  if (code =? NA_INTEGER)%Z then Some Missing
  else if (1 <=? code)%Z then Label <$> levels !! Z.to_nat (code - 1) else None.
Definition labels (levels : list rstr) (codes : list Z) : list (option label) := map (label_of levels) codes.
(** Every code is missing or has a label. *)
Definition codes_ok (levels : list rstr) (codes : list Z) : Prop :=
  Forall (fun c => is_Some (label_of levels c)) codes.
(** As strings: a missing value is the string NA. *)
Definition label_str (l : label) : rstr := match l with Missing => None | Label s => s end.

(** The strings that are not missing. *)
Definition present (xs : list rstr) : list rstr := filter (fun s : rstr => s <> None) xs.

(** [out] lists the distinct elements of [xs] in order of first appearance. *)
Definition first_appearances {A} (xs out : list A) : Prop :=
  NoDup out /\ (forall s, s ∈ out <-> s ∈ xs) /\
  forall i j a b, i < j -> out !! i = Some a -> out !! j = Some b ->
    exists p, xs !! p = Some a /\ forall q, xs !! q = Some b -> p < q.

(** C strings; no more of them than the hash table and its output can take
    (see C07 for the limit). *)
Definition strs_ok (xs : list rstr) : Prop := Forall (fun s => match s with Some b => Forall (fun c => 0 < c < 256)%Z b | None => True end) xs.
Definition strs_fit (xs : list rstr) : Prop :=
  (Z.of_nat (length xs) <= R_LEN_T_MAX)%Z /\
  (forall l, NoDup l -> l ⊆ xs -> (Z.of_nat (length l) <= 2 ^ 30)%Z).
(** Attributes at the same address are the same. *)
Definition same_ptr (x y : lattr) : Prop :=
  match x, y with LChr p a, LChr q b => p = q -> a = b | _, _ => True end.
