(** * Specification of the order in which [vec_ptype2()] tries things *)
From Verif Require Import Base M_Restore M_Types Spec_Types.
From stdpp Require Import list.
Open Scope nat_scope.

(** The type without the side. *)
Definition type_only {obj} (r : res (obj * Z)) : res obj := let! p := r in Ok (fst p).

(** Neither NULL nor unspecified nor a scalar. *)
Definition proper (t : vtype) : Prop := t <> TNull /\ t <> TUnspecified /\ t <> TScalar.

(** The pairs whose common type is that of the first of the pair. *)
Definition first_wins (kx ky : kind) : Prop :=
  (kx = KCharacter /\ (ky = KBareFactor \/ ky = KBareOrdered)) \/ (kx = KBarePosixct /\ ky = KBarePosixlt).
