(** * Specification of casts between numeric vectors. *)
From Verif Require Import Base M_Double M_Cast Spec_Value.

(** The numbers denoted by the elements: NA, NaN, or the exact value times 2^1074. *)
Definition int_num (x : Z) : dsem :=
  match int_sem x with None => SNa | Some v => SNum (v * 2 ^ 1074) end.
Definition num_sem (x : num_vec) : list dsem :=
  match x with
  | NLgl xs | NInt xs => map int_num xs
  | NDbl xs => map dbl_sem xs
  end.
Definition num_typeof (x : num_vec) : num_type :=
  match x with NLgl _ => NTLgl | NInt _ => NTInt | NDbl _ => NTDbl end.

(** Vectors holding C values of their type. *)
Definition lgl_wf (x : Z) : Prop := x = 0%Z \/ x = 1%Z \/ x = NA_LOGICAL.
Definition num_wf (x : num_vec) : Prop :=
  match x with
  | NLgl xs => Forall lgl_wf xs
  | NInt xs => Forall is_int xs
  | NDbl xs => Forall dbl_wf xs
  end.

(** Which values a type has: a logical is 0 or 1, an integer is an integer of
    absolute value below 2^31; missing values exist in every type. *)
Definition representable (to : num_type) (d : dsem) : Prop :=
  match d, to with
  | SNum v, NTLgl => v = 0%Z \/ v = (2 ^ 1074)%Z
  | SNum v, NTInt => exists i, v = (i * 2 ^ 1074)%Z /\ (- 2 ^ 31 < i < 2 ^ 31)%Z
  | _, _ => True
  end.
(** Only doubles distinguish NaN from NA. *)
Definition as_missing (to : num_type) (d : dsem) : dsem :=
  match d, to with
  | SNan, (NTLgl | NTInt) => SNa
  | _, _ => d
  end.
