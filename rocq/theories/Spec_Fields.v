(** * Specification of finding a field (C57) *)
From Verif Require Import Base M_Fields.

(** The number [v] (times 2^1074) names position [j] of [n]: counting from 1, the fraction is dropped. *)
Definition names_position (v : Z) (n j : nat) : Prop :=
  (Z.of_nat (j + 1) * 2 ^ 1074 <= v < Z.of_nat (j + 2) * 2 ^ 1074)%Z /\ j < n.

(** The string [s] names position [j]: the first name that reads the same
    in UTF-8, no name before it being missing. *)
Definition names_field (utf8 : charsxp -> list Z) (names : list (option charsxp)) (s : charsxp) (j : nat) : Prop :=
  utf8 s <> [] /\
  (exists c, names !! j = Some (Some c) /\ utf8 c = utf8 s) /\
  (forall k, k < j -> exists c, names !! k = Some (Some c) /\ utf8 c <> utf8 s).

(** All fields have the same size. *)
Definition record_wf {V} (vec_size : V -> nat) (x : flist V) : Prop :=
  exists n, fl_elts x <> [] /\ Forall (fun v => vec_size v = n) (fl_elts x).
