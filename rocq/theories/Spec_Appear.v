(** * Specification of ordering by appearance (C56) *)
From Verif Require Import Base Spec_Order.

(** Where [s] is first found in [x] (the length of [x] if nowhere). *)
Fixpoint first_pos (x : list (list Z)) (s : list Z) : nat :=
  match x with
  | [] => 0
  | y :: x => if bool_decide (y = s) then 0 else S (first_pos x s)
  end.

(** Rows compare by where their string first appears. *)
Definition appear_cmp (x : list (list Z)) (a b : Z) : comparison :=
  Nat.compare (first_pos x (at_loc [] x a)) (first_pos x (at_loc [] x b)).
