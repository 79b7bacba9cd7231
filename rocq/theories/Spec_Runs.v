(** * Specification: runs of equal rows *)
From Coq Require Import Sorting.Sorted.
From Verif Require Import Base M_Double M_Scalar M_Object M_Proxy Spec_Value Spec_Equal Spec_Missing Spec_Dict M_Slice M_Runs.

(** Row [i] starts (ends) a maximal run of equal rows. *)
Definition run_start (p : proxy) (i : nat) : Prop := i = 0 \/ ~ rows_equal p (i - 1) p i.
Definition run_end (p : proxy) (i : nat) : Prop := i + 1 = proxy_size p \/ ~ rows_equal p i p (i + 1).
Definition run_bound_at (which : run_bound) (p : proxy) (i : nat) : Prop :=
  match which with RStart => run_start p i | REnd => run_end p i end.

(** [locs] are the 1-based locations satisfying [P], in order. *)
Definition lists_locs (n : nat) (P : nat -> Prop) (locs : list Z) : Prop :=
  StronglySorted Z.lt locs /\ forall z, In z locs <-> exists i, i < n /\ z = rloc i /\ P i.

Definition zsum (l : list Z) : Z := fold_right Z.add 0%Z l.
(** [sizes] are the sizes of the maximal runs, in order: they are positive, sum to
    the number of rows, and a row starts a run exactly when it is preceded by a
    whole number of runs. *)
Definition run_sizes_of (p : proxy) (sizes : list Z) : Prop :=
  Forall (fun s => 0 < s)%Z sizes /\ zsum sizes = Z.of_nat (proxy_size p) /\
  forall i, i < proxy_size p ->
    run_start p i <-> exists k, k < length sizes /\ zsum (take k sizes) = Z.of_nat i.
