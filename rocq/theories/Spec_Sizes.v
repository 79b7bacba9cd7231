(** * Specification: sizes given as arguments and sizes of elements *)
From Verif Require Import Base M_Double M_Sizes Spec_Value.
#[local] Open Scope Z_scope.

(** The whole number that an argument stands for *)
Definition dbl_is (d : dbl) (k : Z) : Prop := dbl_sem d = SNum (k * 2 ^ 1074).
Inductive stands_for : sdata -> Z -> Prop :=
| stands_dbl d k : dbl_is d k -> stands_for (SDbl [d]) k
| stands_int k : k <> - 2 ^ 31 -> stands_for (SInt [k]) k.
(** Doubles hold 64 bits and integers 32. *)
Definition sdata_wf (d : sdata) : Prop :=
  match d with
  | SDbl v => Forall dbl_wf v
  | SInt v => Forall is_int v
  | SOther => True
  end.
(** Doubles below -2^63, -Inf among them *)
Definition far_below (d : sdata) : Prop :=
  exists x v, d = SDbl [x] /\ dbl_sem x = SNum v /\ v <= (- 2 ^ 63 - 1) * 2 ^ 1074.
(** Missing doubles *)
Definition missing_dbl (d : sdata) : Prop :=
  exists x, d = SDbl [x] /\ (dbl_sem x = SNa \/ dbl_sem x = SNan).
