(** * Specification: which method is found *)
From Verif Require Import Base M_S3.

Definition no_nul (s : bytes) : Prop := Forall (fun b => b <> 0%Z) s.
Definition no_dot (s : bytes) : Prop := Forall (fun b => b <> 46%Z) s.
(** [generic.class] *)
Definition method_name (generic cls : bytes) : bytes := generic ++ 46%Z :: cls.
(** A name that the buffer holds *)
Definition fits (s : bytes) : Prop := length s < 200.

(** The function that a name is bound to: in the global environment, or else
    in the table *)
Definition is_method (global table : env) (name : bytes) (m : Z) : Prop :=
  global name = Some (VFun m) \/
  ((forall k, global name <> Some (VFun k)) /\ table name = Some (VFun m)).
(** The first class of an object for dispatch *)
Definition first_class (x : sobj) (c : bytes) : Prop :=
  (so_object x = true /\ exists rest, so_class x = Some (c :: rest)) \/
  ((so_object x = false \/ so_class x = None) /\ exists rest, so_bare x = Ok (c :: rest)).

(** A fallback in a data frame or in its data frame columns *)
Inductive has_fallback : list pcol -> Prop :=
| fallback_here cols : PFallback ∈ cols -> has_fallback cols
| fallback_col cs cols : PFrame cs ∈ cols -> has_fallback cs -> has_fallback cols.
