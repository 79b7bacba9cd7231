(** * Specification: recycling, replication and expansion *)
From Verif Require Import Base M_Double M_Scalar M_Object M_Proxy M_Slice Spec_Slice M_Rep.

(** Locations 1..n, and each of them repeated. *)
Definition all_locs_of (n : nat) : list Z := map (fun k => Z.of_nat k + 1)%Z (seq 0 n).
Definition rep_locs (n : nat) (times : Z) : list Z := concat (replicate (Z.to_nat times) (all_locs_of n)).
Definition rep_each_locs (n : nat) (times : list Z) : list Z :=
  concat (zip_with (fun i t => replicate (Z.to_nat t) i) (all_locs_of n) times).
Definition total (l : list Z) : Z := fold_right Z.add 0%Z l.
(** [times] recycled to size [n]. *)
Definition recycled_times (n : nat) (times : list Z) : list Z :=
  match times with [t] => replicate n t | _ => times end.

(** ** Common sizes *)
(** The sizes of the non-[NULL] inputs. *)
Definition sizes_of (xs : list (option value)) : list Z := map value_size (omap id xs).
(** The recycling rule: [s] is the common size of [ns]. *)
Definition common_size (ns : list Z) (s : Z) : Prop :=
  In s ns /\ forall n, In n ns -> n = s \/ n = 1%Z.
Definition incompatible (ns : list Z) : Prop :=
  exists a b, In a ns /\ In b ns /\ a <> 1%Z /\ b <> 1%Z /\ a <> b.
(** [y] is [x] recycled to size [s]. *)
Definition recycled (s : Z) (x y : option value) : Prop :=
  match x with
  | None => y = None
  | Some v => exists w, y = Some w /\
      ((value_size v = s /\ w = v) \/ (value_size v = 1%Z /\ s <> 1%Z /\ sliced (replicate (Z.to_nat s) 1%Z) v w))
  end.

(** ** Mixed radix *)
(** The [j]-th digit of [k] in the mixed radix [ns], first digit slowest / fastest. *)
Definition digit (v : vary) (ns : list Z) (j : nat) (k : Z) : Z :=
  let weight := match v with Slowest => zprod (drop (S j) ns) | Fastest => zprod (take j ns) end in
  ((k / weight) mod nth j ns 1)%Z.
Definition grid_locs (v : vary) (ns : list Z) (j : nat) : list Z :=
  map (fun k => digit v ns j (Z.of_nat k) + 1)%Z (seq 0 (Z.to_nat (zprod ns))).
(** No intermediate product of sizes exceeds an [r_ssize]. *)
Definition prefix_ok (ns : list Z) : Prop := forall i, i <= length ns -> (zprod (take i ns) <= R_SSIZE_MAX)%Z.
