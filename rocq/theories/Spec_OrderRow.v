(** * Specification of ordering (C27): comparing rows *)
From Verif Require Import Base M_Double M_Scalar M_OrderChr M_OrderDf Spec_Order.

(** How the rows [a] and [b] (counted from 1) of a column compare. *)
Definition col_vcmp (na_largest nan_distinct : bool) (c : ocol) (a b : Z) : comparison :=
  match c with
  | OLgl l | OInt l => by_loc NA_INTEGER (int_vcmp na_largest) l a b
  | ODbl l => by_loc 0%Z (dbl_vcmp na_largest nan_distinct) l a b
  | OCpl l => by_loc (0%Z, 0%Z) (cpl_vcmp na_largest nan_distinct) l a b
  | OChr l => by_loc None (chr_vcmp na_largest) l a b
  end.

(** Lexicographic comparison of the rows of several columns, each with its
    direction and the place of its missing values. *)
Fixpoint rows_vcmp (nan_distinct : bool) (cols : list (ocol * (bool * bool))) (a b : Z) : comparison :=
  match cols with
  | [] => Eq
  | (c, (decreasing, na_largest)) :: cols =>
      cmp_then (dir decreasing (col_vcmp na_largest nan_distinct c a b)) (rows_vcmp nan_distinct cols a b)
  end.

(** Well-formed columns of [n] rows: integers and bit patterns in range,
    strings of nonzero bytes. *)
Definition col_ok (n : nat) (c : ocol) : Prop :=
  ocol_length c = n /\
  match c with
  | OLgl l | OInt l => Forall is_int l
  | ODbl l => Forall dbl_wf l
  | OCpl l => Forall (fun z => dbl_wf z.1 /\ dbl_wf z.2) l
  | OChr l => Forall (fun x => forall s, x = Some s -> Forall (fun b => 1 <= b <= 255)%Z s) l
  end.
