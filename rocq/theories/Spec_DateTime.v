(** * Specification: the times of date-times and their zones *)
From Verif Require Import Base M_Double M_Scalar M_DateTime Spec_Value.

(** A double for an integer: the same number, or missing *)
Definition same_number (i : Z) (d : dbl) : Prop :=
  match int_sem i with None => dbl_sem d = SNa | Some v => dbl_sem d = SNum (v * 2 ^ 1074) end.
(** The times are those of the data. *)
Definition same_times (x : ddata) (v : list dbl) : Prop :=
  match x with TDbl w => v = w | TInt w => Forall2 same_number w v | TOther => False end.
(** The zone that an attribute stands for: none is the local zone "", and only
    the first one counts. *)
Definition zone_of (tz : option (list rstr)) (z : rstr) : Prop :=
  (tz = None /\ z = Some []) \/ exists rest, tz = Some (z :: rest).
(** What a zone is spelled like in C *)
Definition spelled (z : rstr) : list Z := match z with None => [78; 65]%Z | Some b => b end.
(** The time of a double: two doubles are the same time if they are the same
    number, not missing. *)
Definition same_time (a b : dbl) : Prop := exists v, dbl_sem a = SNum v /\ dbl_sem b = SNum v.
Definition missing_time (a : dbl) : Prop := dbl_sem a = SNa \/ dbl_sem a = SNan.
Definition ints_wf (x : ddata) : Prop :=
  match x with TInt w => Forall is_int w | TDbl w => Forall dbl_wf w | TOther => True end.
